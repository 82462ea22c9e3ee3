(** Proofs about the authentication state machine, continued: counting and users. *)
From Coq Require Import String.
From Verif Require Import Base Text Auth2Model Auth2Spec Auth2Proof.

(** ** One output list *)
(** What a step leaves behind, whatever the configuration *)
Definition delta (first excused : bool) (e : ev) (o : list out) : Z :=
  match e with
  | EReq _ _ m _ a => if (r_srv a && beqb m (mname mGss)) || (first && beqb m (bs "none")) then 0 else failed o
  | _ => if excused then 0 else failed o
  end.
Definition excused' (excused : bool) (e : ev) : bool := match e with EReq _ _ m _ a => r_srv a && beqb m (mname mGss) | _ => excused end.
Definition first' (first : bool) (e : ev) : bool := match e with EReq _ _ _ _ _ => false | _ => first end.
Lemma counted_cons : forall f x e o tr, counted f x ((e, o) :: tr) = delta f x e o + counted (first' f e) (excused' x e) tr.
Proof. intros f x e o tr. destruct e; reflexivity. Qed.
Definition xinv (s : st) (first excused : bool) : Prop :=
  first = (s_attempt s =? 0) /\ (s_srv s = true -> excused = true) /\ (s_kbd s <> None -> excused = false).
Lemma root_spec : forall c e f m, (f = forced e) -> root_allowed c f m = true -> root_ok c e (mname m).
Proof. intros c e f m -> H. unfold root_allowed in H. unfold root_ok. destruct (cf_root c); auto; try discriminate. destruct m; auto; discriminate. Qed.

Lemma mname_none : forall c pm m, byname c pm = Some m -> mname m = bs "none" -> pm = bs "none".
Proof. intros c pm m B E. assert (m = mNone) by (apply mname_inj; exact E). subst m. destruct (byname_in _ _ _ B) as [_ [H|H]]; [exact H|discriminate]. Qed.
Lemma failed_verdict : forall m sub l, failed (OVerdict Failed m sub :: l) = 1 + failed l.
Proof. intros. unfold failed. cbn [filter]. rewrite zlen_cons. lia. Qed.


(** Failures *)
Lemma finish_count : forall c s1 auth post force pm sub,
  match finish c s1 auth post force pm sub with
  | Alive s' o =>
      same s1 s' /\ 0 <= failed o <= 1 /\ s_failures s1 <= s_failures s' /\ (s_failures s' = s_failures s1 \/ s_failures s' < cf_max c) /\
      (s_success s' = s_success s1 \/ s_success s' = true) /\
      (failed o = 1 -> s_srv s1 = false -> 1 < s_attempt s1 \/ pm <> bs "none" -> s_failures s' = s_failures s1 + 1) /\
      (auth = false -> post = false -> failed o = 1)
  | Dead o => 0 <= failed o <= 1 /\ (o <> [] -> auth = false -> post = false -> failed o = 1)
  end.
Proof.
  intros c s1 auth post force pm sub.
  assert (FF : forall s2 p pm' o, same s1 s2 -> s_failures s2 = s_failures s1 -> s_success s2 = s_success s1 -> (exists v, o = [OVerdict v pm' sub]) -> (p = true -> failed o = 0) ->
     (pm' = pm \/ (mname mNone = pm' -> pm = bs "none")) -> (auth = false -> post = false -> failed o = 1) ->
     match finish_fail c s2 p pm' o with
     | Alive s' o =>
      same s1 s' /\ 0 <= failed o <= 1 /\ s_failures s1 <= s_failures s' /\ (s_failures s' = s_failures s1 \/ s_failures s' < cf_max c) /\
      (s_success s' = s_success s1 \/ s_success s' = true) /\
      (failed o = 1 -> s_srv s1 = false -> 1 < s_attempt s1 \/ pm <> bs "none" -> s_failures s' = s_failures s1 + 1) /\
      (auth = false -> post = false -> failed o = 1)
     | Dead o => 0 <= failed o <= 1 /\ (o <> [] -> auth = false -> post = false -> failed o = 1)
     end).
  { intros s2 p pm' o Sm Fa Su (vd & Eo) Hp Hpm Hf.
    assert (F1 : 0 <= failed o <= 1) by (subst o; destruct vd; cbn; lia).
    destruct (finish_fail c s2 p pm' o) as [s3 o3|o3] eqn:E.
    - apply finish_fail_alive in E. destruct E as (S3 & U3 & _ & (ms & ->) & Lt & Fe).
      assert (F2 : failed (o ++ [OFailure ms p]) = failed o) by (rewrite failed_app; cbn; lia). rewrite F2.
      split; [|split; [exact F1|split; [|split; [now right|split; [left; congruence|split; [|exact Hf]]]]]].
      + unfold same in *. intuition congruence.
      + rewrite Fe, Fa. destruct (negb p && _ && _); lia.
      + intros Fo Sr Pm. rewrite Fe, Fa. assert (Ep : p = false) by (destruct p; [rewrite Hp in Fo by reflexivity; lia|reflexivity]). rewrite Ep. destruct Sm as (Sa & _ & _ & _ & _ & Ss & _).
        rewrite Ss, Sr, Sa. cbn [negb andb].
        assert (X : (1 <? s_attempt s1) || negb (beqb pm' (bs "none")) = true); [|now rewrite X].
        destruct Pm as [Pm|Pm]; [apply Z.ltb_lt in Pm; now rewrite Pm|]. apply orb_true_iff. right. apply negb_true_iff, beqb_neq. intros ->.
        destruct Hpm as [Hpm|Hpm]; [congruence|]. apply Pm. apply Hpm. reflexivity.
    - apply finish_fail_dead in E. subst o3. split; [exact F1|auto]. }
  assert (S11 : same s1 s1) by (unfold same; auto 12).
  destruct (finish_cases c s1 auth post force pm sub) as [Ea|Ea Ep|r Ea Ep Er|m r Ea Ep V B R1 R2 Er|m Ea Ep V B R Nn|m ls Ea Ep V B R Nn U|m ls r Ea Ep V B R Nn U Er].
  - split; [cbn; lia|congruence].
  - splits; auto; try lia; cbn; lia || congruence.
  - rewrite <- Er. apply FF; eauto. discriminate.
  - rewrite <- Er. apply FF; eauto; try discriminate. right. intros E. eapply mname_none; [exact B|symmetry; exact E].
  - splits; auto; try (cbn; lia); try (intros H; cbn in H; discriminate); try (unfold same; cbn; auto 12); congruence.
  - splits; auto; try (cbn; lia); try (intros H; cbn in H; discriminate); try (unfold same; cbn; auto 12); congruence.
  - rewrite <- Er. apply FF; eauto; [|congruence]. right. intros E. eapply mname_none; [exact B|symmetry; exact E].
Qed.

Lemma delta_bounds : forall f x e o, 0 <= failed o <= 1 -> 0 <= delta f x e o <= 1 /\ delta f x e o <= failed o.
Proof. intros f x e o H. unfold delta. destruct e; try (destruct x; lia). destruct (_ || _); lia. Qed.
Lemma prepared_excuse : forall c s e s1 auth post force pm sub f x, prepared c s e s1 auth post force pm sub -> xinv s f x ->
  (forall o, delta f x e o <> 0 -> s_srv s1 = false /\ (1 < s_attempt s1 \/ pm <> bs "none")) /\
  (refused e = true -> (length (cf_devs c) <= 1)%nat -> auth = false /\ post = false /\ forall o, delta f x e o = failed o) /\
  (forall s', same s1 s' -> xinv s' (first' f e) (excused' x e)) /\
  (s_attempt s1 = s_attempt s + (match e with EReq _ _ _ _ _ => 1 | _ => 0 end)).
Proof.
  intros c s e s1 auth post force pm sub f x P (X1 & X2 & X3). destruct P as (P1 & P2 & P3 & P4 & P5 & P6).
  assert (At0 : f = true \/ s_attempt s <> 0) by (subst f; destruct (Z.eqb_spec (s_attempt s) 0); auto).
  assert (Oth : ~ is_req e -> s_attempt s1 = s_attempt s /\ s_srv s1 = s_srv s /\ pm <> bs "none" /\ (refused e = true -> (length (cf_devs c) <= 1)%nat -> auth = false /\ post = false) /\
     (s_kbd s1 <> None -> s_kbd s <> None) /\ (refused e = true -> s_kbd s <> None)).
  { intros N. destruct e; [exfalso; apply N; exact Logic.I|..]; destruct P6 as (A & B & _ & _ & D & E & F & G & _); splits; auto; intros H1 H2; destruct (E H1 H2) as (E1 & E2 & _); auto. }
  assert (K : is_req e \/ ~ is_req e) by (destruct e; cbn; auto). destruct K as [K|K].
  - destruct e as [u v n pw a| | | | | ]; try contradiction. clear Oth. destruct P6 as (Q1 & Q2 & Q3 & Q4 & Q5 & Q6 & Q7 & Q8 & Q9 & Q10 & Q11 & Q12 & Q13 & Q14). subst pm. cbn [delta first' excused'].
    assert (Ex : r_srv a && beqb n (mname mGss) = false -> s_srv s1 = false) by (intros E; destruct (s_srv s1); [destruct Q6 as [Q6 Qn]; auto; rewrite Q6, Qn, beqb_refl in E; discriminate|reflexivity]).
    split; [|split; [|split; [|exact Q4]]].
    + intros o H. destruct (r_srv a && beqb n (mname mGss)) eqn:E1; [contradiction|]. split; [auto|]. cbn [orb] in H. destruct (beqb n (bs "none")) eqn:E2; [|right; now apply beqb_neq].
      destruct At0 as [-> |A0]; [contradiction|]. left. clear - Q4 P3 A0. lia.
    + intros R L. assert (Ea : auth = false) by (destruct auth; [rewrite Q10 in R by reflexivity; discriminate|reflexivity]).
      assert (Ep : post = false) by (destruct post; [rewrite Q8 in R by reflexivity; discriminate|reflexivity]). splits; auto. intros o.
      assert (Eg : beqb n (mname mGss) = false) by (apply beqb_neq; intros ->; vm_compute in R; discriminate).
      assert (En : beqb n (bs "none") = false) by (apply beqb_neq; intros ->; vm_compute in R; discriminate).
      rewrite Eg, En, !andb_false_r. reflexivity.
    + intros s' (Sa & _ & _ & _ & _ & Ss & Sk & _). unfold xinv. rewrite Sa, Ss, Sk. splits.
      * symmetry. apply Z.eqb_neq. clear - P3. lia.
      * intros E. destruct (r_srv a && beqb n (mname mGss)) eqn:E1; [reflexivity|]. rewrite (Ex eq_refl) in E. discriminate.
      * intros E. apply andb_false_iff. right. apply beqb_neq. auto.
  - destruct (Oth K) as (O1 & O2 & O3 & O4 & O5 & O6). assert (Ed : forall o, delta f x e o = if x then 0 else failed o) by (intros o; destruct e; [exfalso; apply K; exact Logic.I|..]; reflexivity).
    assert (Ef : first' f e = f /\ excused' x e = x) by (destruct e; [exfalso; apply K; exact Logic.I|..]; auto). destruct Ef as [-> ->].
    split; [|split; [|split]].
    + intros o H. rewrite Ed in H. destruct x; [contradiction|]. split; [|auto]. rewrite O2. destruct (s_srv s); [discriminate X2; reflexivity|reflexivity].
    + intros R L. destruct (O4 R L). splits; auto. intros o. rewrite Ed, X3; auto.
    + intros s' (Sa & _ & _ & _ & _ & Ss & Sk & _). unfold xinv. rewrite Sa, Ss, Sk, O1, O2. auto.
    + clear - O1 K. destruct e; [exfalso; apply K; exact Logic.I|..]; lia.
Qed.

Lemma step_count : forall c s e f x, sinv c s -> s_success s = false -> xinv s f x ->
  match step c s e with
  | Alive s' o => 0 <= delta f x e o <= s_failures s' - s_failures s /\ (s_failures s' = s_failures s \/ s_failures s' < cf_max c) /\
      (s_success s' = false -> sinv c s' /\ xinv s' (first' f e) (excused' x e)) /\
      (refused e = true -> o <> [] -> (length (cf_devs c) <= 1)%nat -> delta f x e o = 1) /\
      (match e with EReq _ _ _ _ _ => s_attempt s' = s_attempt s + 1 /\ s_attempt s < 1024 | _ => s_attempt s' = s_attempt s end)
  | Dead o => 0 <= delta f x e o <= 1 /\ (refused e = true -> o <> [] -> (length (cf_devs c) <= 1)%nat -> delta f x e o = 1) /\ (is_req e -> o <> [] -> s_attempt s < 1024)
  end.
Proof.
  intros c s e f x I Hs X. destruct (step_cases c s e I Hs) as [s1 Nr Ca At Fa Sr Su Si Kb Rf|Rq|s1 auth post force pm sub q P Q].
  - assert (D : delta f x e [] = 0) by (unfold delta; destruct e; [destruct (_ || _); reflexivity|destruct x; reflexivity..]). rewrite D, Fa. splits; auto; try lia; try congruence.
    + intros _. split; [exact Si|]. destruct X as (X1 & X2 & X3). unfold xinv. rewrite At, Sr, Kb. destruct e; [exfalso; apply Nr; exact Logic.I|..]; cbn [first' excused']; auto.
    + destruct e; [exfalso; apply Nr; exact Logic.I|..]; exact At.
  - split; [|split; congruence]. unfold delta. destruct e; [destruct (_ || _); cbn; lia|destruct x; cbn; lia..].
  - destruct (prepared_excuse c s e s1 auth post force pm sub f x P X) as (E1 & E2 & E3 & E4). pose proof (finish_count c s1 auth post force pm sub) as F.
    destruct P as (P1 & P2 & P3 & P4 & P5 & P6). destruct (quiet_pre q Q) as (_ & _ & Q3).
    assert (At : match e with EReq _ _ _ _ _ => s_attempt s < 1024 | _ => True end) by (destruct e; auto; now destruct P6 as (_ & _ & _ & _ & P6 & _)).
    destruct (finish c s1 auth post force pm sub) as [s' o|o]; cbn [pre].
    + destruct F as (Sm & F1 & F2 & F3 & F4 & F5 & F6). assert (Eq : failed (q ++ o) = failed o) by (rewrite failed_app; lia).
      destruct (delta_bounds f x e (q ++ o)) as [B1 B2]; [lia|]. splits; [lia| |destruct F3; lia|..].
      * destruct (Z.eq_dec (delta f x e (q ++ o)) 0) as [->|Nz]; [lia|]. destruct (E1 (q ++ o) Nz) as [A1 A2]. rewrite (F5 ltac:(lia) A1 A2). lia.
      * intros _. split; [apply (sinv_same c s1 s' Sm P3 P5)|now apply E3].
      * intros R _ L. destruct (E2 R L) as (A1 & A2 & A3). rewrite A3, Eq. now apply F6.
      * destruct Sm as (Sm & _). rewrite Sm, E4. clear - At. destruct e; lia.
    + destruct F as [F1 F2]. destruct (delta_bounds f x e o) as [B1 B2]; [lia|]. splits; [lia|lia| |].
      * intros R No L. destruct (E2 R L) as (A1 & A2 & A3). rewrite A3. now apply F2.
      * intros R _. destruct e; try contradiction. exact At.
Qed.

Lemma quiet_counts : forall tr f x, Forall (fun p : ev * list out => snd p = []) tr -> counted f x tr = 0 /\ requests tr = 0 /\ refusals tr = 0.
Proof.
  intros tr f x H. revert f x. induction H as [|[e o] tr E _ IH]; intros f x; [auto|]. cbn [snd] in E. subst o. rewrite counted_cons. destruct (IH (first' f e) (excused' x e)) as (A & B & D).
  rewrite A. splits; [|exact B|exact D]. unfold delta. destruct e; [destruct (_ || _); reflexivity|destruct x; reflexivity..].
Qed.
Lemma requests_cons : forall e o tr, requests ((e, o) :: tr) = (if negb (is_nil o) && match e with EReq _ _ _ _ _ => true | _ => false end then 1 else 0) + requests tr.
Proof. intros e o tr. unfold requests. cbn [filter]. change (answered (e, o)) with (negb (is_nil o)). cbn [fst]. destruct (negb (is_nil o) && _); [rewrite zlen_cons|]; lia. Qed.
Lemma refusals_cons : forall e o tr, refusals ((e, o) :: tr) = (if negb (is_nil o) && refused e then 1 else 0) + refusals tr.
Proof. intros e o tr. unfold refusals. cbn [filter]. change (answered (e, o)) with (negb (is_nil o)). cbn [fst]. destruct (negb (is_nil o) && _); [rewrite zlen_cons|]; lia. Qed.
Lemma run_count : forall c es s f x tr fin, sinv c s -> s_success s = false -> xinv s f x -> s_failures s < Z.max 1 (cf_max c) -> run c s es = (tr, fin) ->
  s_failures s + counted f x tr <= Z.max 1 (cf_max c) /\ (fin <> None -> s_failures s + counted f x tr < Z.max 1 (cf_max c)) /\
  s_attempt s + requests tr <= Z.max 1024 (s_attempt s) /\ 0 <= counted f x tr /\ ((length (cf_devs c) <= 1)%nat -> refusals tr <= counted f x tr).
Proof.
  intros c es. induction es as [|e es IH]; intros s f x tr fin I Hs X Hf H; cbn [run] in H.
  - injection H as <- <-. cbn [counted]. unfold requests, refusals. cbn [filter]. rewrite zlen_nil. splits; intros; lia.
  - pose proof (step_count c s e f x I Hs X) as S. destruct (step c s e) as [s' o|o].
    + destruct (run c s' es) as [tr' fin'] eqn:R. injection H as <- <-. destruct S as (S1 & S2 & S3 & S4 & S5). rewrite counted_cons, requests_cons, refusals_cons.
      assert (Hf' : s_failures s' < Z.max 1 (cf_max c)) by lia.
      assert (Rq : (if negb (is_nil o) && match e with EReq _ _ _ _ _ => true | _ => false end then 1 else 0) <= s_attempt s' - s_attempt s) by (destruct e; rewrite ?andb_false_r; [destruct (negb (is_nil o)); cbn; lia|lia..]).
      assert (Ru : (length (cf_devs c) <= 1)%nat -> (if negb (is_nil o) && refused e then 1 else 0) <= delta f x e o).
      { intros L. destruct o as [|y o]; [cbn [is_nil negb andb]; lia|]. destruct (refused e) eqn:Re; cbn [is_nil negb andb]; [|lia]. rewrite S4; auto; [lia|discriminate]. }
      assert (A' : s_attempt s' <= Z.max 1024 (s_attempt s)) by (destruct e; lia).
      assert (A0 : s_attempt s <= s_attempt s') by (destruct e; lia).
      destruct (s_success s') eqn:U.
      * destruct (run_done c es s' U) as (tr2 & R2 & F2). rewrite R in R2. injection R2 as -> ->. destruct (quiet_counts tr2 (first' f e) (excused' x e) F2) as (C1 & C2 & C3). rewrite C1, C2, C3.
        split; [lia|split; [lia|split; [lia|split; [lia|intros L; specialize (Ru L); lia]]]].
      * destruct (S3 eq_refl) as [S3a S3b]. destruct (IH s' _ _ tr' fin' S3a U S3b Hf' R) as (J1 & J2 & J3 & J4 & J5).
        split; [lia|split; [intros Nn; specialize (J2 Nn); lia|split; [lia|split; [lia|intros L; specialize (Ru L); specialize (J5 L); lia]]]].
    + injection H as <- <-. destruct S as (S1 & S2 & S3). rewrite counted_cons, requests_cons, refusals_cons. cbn [counted]. change (requests []) with 0. change (refusals []) with 0.
      split; [lia|split; [congruence|split; [|split; [lia|]]]].
      * destruct e; rewrite ?andb_false_r; try lia. destruct o as [|y o]; cbn [is_nil negb andb]; [lia|]. assert (s_attempt s < 1024) by (apply S3; [exact Logic.I|discriminate]). lia.
      * intros L. destruct o as [|y o]; [cbn [is_nil negb andb]; lia|]. destruct (refused e) eqn:Re; cbn [is_nil negb andb]; [|lia]. rewrite S2; auto; [lia|discriminate].
Qed.

(** Users and checks *)
Lemma finish_passed : forall c s1 auth post force pm sub m sb,
  match finish c s1 auth post force pm sub with Alive s' o => In (m, sb) (dones o) | Dead o => In (m, sb) (dones o) end ->
  auth = true /\ s_valid s1 = true /\ sb = sub /\ exists k, byname c pm = Some k /\ m = mname k /\ (s_root s1 = true -> root_allowed c force k = true).
Proof.
  intros c s1 auth post force pm sub m sb.
  assert (FF : forall s2 p pm' o, match finish_fail c s2 p pm' o with Alive s' o => In (m, sb) (dones o) | Dead o => In (m, sb) (dones o) end -> In (m, sb) (dones o)).
  { intros s2 p pm' o. destruct (finish_fail c s2 p pm' o) as [s3 o3|o3] eqn:E.
    - apply finish_fail_alive in E. destruct E as (_ & _ & _ & (ms & ->) & _). rewrite dones_app. cbn [dones flat_map done_of]. now rewrite app_nil_r.
    - apply finish_fail_dead in E. now subst o3. }
  destruct (finish_cases c s1 auth post force pm sub) as [Ea|Ea Ep|r Ea Ep Er|k r Ea Ep V B R1 R2 Er|k Ea Ep V B R Nn|k ls Ea Ep V B R Nn U|k ls r Ea Ep V B R Nn U Er].
  - intros [].
  - intros [].
  - rewrite <- Er. intros H. apply FF in H. destruct H.
  - rewrite <- Er. intros H. apply FF in H. destruct H.
  - intros [H|[]]. injection H as <- <-. splits; eauto.
  - intros [H|[]]. injection H as <- <-. splits; eauto.
  - rewrite <- Er. intros H. apply FF in H. destruct H as [H|[]]. injection H as <- <-. splits; eauto.
Qed.
Definition outs (r : res) : list out := match r with Alive _ o | Dead o => o end.
Lemma step_user : forall c s e, sinv c s -> s_success s = false ->
  (forall m sb, In (m, sb) (dones (outs (step c s e))) -> passed c e m sb) /\
  (0 < s_attempt s -> forall m sb, In (m, sb) (dones (outs (step c s e))) -> s_valid s = true /\ (s_root s = true -> root_ok c e m)) /\
  (0 < s_attempt s -> forall s' o, step c s e = Alive s' o -> s_user s' = s_user s /\ s_service s' = s_service s /\ s_valid s' = s_valid s /\ s_root s' = s_root s /\ 0 < s_attempt s') /\
  (forall u v n pw a, e = EReq u v n pw a -> outs (step c s e) <> [] -> 0 < s_attempt s -> before_colon u = s_user s /\ v = s_service s) /\
  (forall u v n pw a, e = EReq u v n pw a -> s_attempt s = 0 ->
     (forall m sb, In (m, sb) (dones (outs (step c s e))) -> exists b, pw = Some b /\ v = bs "ssh-connection" /\ (b = true -> root_ok c e m)) /\
     (forall s' o, step c s e = Alive s' o -> 0 < s_attempt s' /\ s_user s' = before_colon u /\ s_service s' = v /\ (s_valid s' = true -> exists b, pw = Some b /\ v = bs "ssh-connection" /\ s_root s' = b))) /\
  (~ is_req e -> s_attempt s = 0 -> outs (step c s e) = [] /\ forall s' o, step c s e = Alive s' o -> s_attempt s' = 0 /\ s_success s' = false).
Proof.
  intros c s e I Hs. destruct (step_cases c s e I Hs) as [s1 Nr Ca At Fa Sr Su Si Kb Rf|Rq|s1 auth post force pm sub q P Q].
  - destruct Ca as (C1 & C2 & C3 & C4 & C5). cbn [outs]. splits; try (intros; exfalso; congruence).
    + intros m sb [].
    + intros _ m sb [].
    + intros A s' o E. injection E as <- <-. splits; congruence.
    + intros u v n pw a ->. exfalso. apply Nr. exact Logic.I.
    + intros _ A. split; [reflexivity|]. intros s' o E. injection E as <- <-. split; congruence.
  - cbn [outs]. splits; [intros m sb []|intros _ m sb []|intros _ s' o E; discriminate|intros u v n pw a _ No; congruence| |contradiction].
    intros u v n pw a _ _. split; [intros m sb []|intros s' o E; discriminate].
  - assert (Nz : ~ is_req e -> 0 < s_attempt s) by (intros N; destruct P as (_ & _ & P3 & _ & _ & P6); destruct e; [exfalso; apply N; exact Logic.I|..]; destruct P6 as (P6 & _); lia).
    destruct (quiet_pre q Q) as (Q1 & _ & _).
    assert (D : dones (outs (pre q (finish c s1 auth post force pm sub))) = dones (outs (finish c s1 auth post force pm sub))).
    { destruct (finish c s1 auth post force pm sub) as [s3 o3|o3]; cbn [pre outs]; [|reflexivity]. now rewrite dones_app, Q1. }
    assert (Pp : forall m sb, In (m, sb) (dones (outs (pre q (finish c s1 auth post force pm sub)))) -> passed c e m sb /\ s_valid s1 = true /\ (s_root s1 = true -> root_ok c e m)).
    { intros m sb H. rewrite D in H. pose proof (finish_passed c s1 auth post force pm sub m sb) as F.
      assert (H' : match finish c s1 auth post force pm sub with Alive s' o => In (m, sb) (dones o) | Dead o => In (m, sb) (dones o) end) by (destruct (finish c s1 auth post force pm sub); exact H).
      destruct (F H') as (Ea & V & -> & k & B & -> & R). clear F H H'. destruct P as (_ & _ & _ & _ & _ & P6).
      assert (Fo : force = forced e).
      { destruct e; [destruct P6 as (_ & _ & P6 & _); exact P6|..]; try (destruct P6 as (_ & _ & _ & _ & _ & _ & _ & _ & P6); exact P6). destruct P6 as (_ & _ & _ & E3 & _). destruct (E3 Ea) as [[] _]. }
      split; [|split; [exact V|intros Rt; now apply root_spec with (f := force), R]].
      destruct e as [u v n pw a| | | | | ].
      - destruct P6 as (E1 & E2 & _ & _ & _ & _ & E3 & _). destruct (E3 Ea) as (k' & B' & Pa). subst pm sub. rewrite B in B'. injection B' as <-. exact Pa.
      - destruct P6 as (_ & _ & _ & E3 & _). destruct (E3 Ea) as [Pa _]. cbn [passed] in *. destruct r; try contradiction. destruct Pa as [-> Pa]. split; [|exact Pa]. destruct (byname_in _ _ _ B) as [_ [E|E]]; [congruence|destruct k; discriminate].
      - destruct P6 as (_ & _ & _ & E3 & _). destruct (E3 Ea) as [Pa _]. destruct Pa.
      - destruct P6 as (_ & _ & _ & E3 & _). destruct (E3 Ea) as [Pa _]. destruct Pa.
      - destruct P6 as (_ & _ & _ & E3 & _). destruct (E3 Ea) as [Pa _]. cbn [passed] in *. destruct ok; try contradiction. destruct Pa as [-> Pa]. split; [|exact Pa]. destruct (byname_in _ _ _ B) as [_ [E|E]]; [congruence|destruct k; discriminate].
      - destruct P6 as (_ & _ & _ & E3 & _). destruct (E3 Ea) as [Pa _]. cbn [passed] in *. destruct ok; try contradiction. destruct Pa as [-> Pa]. split; [|exact Pa]. destruct (byname_in _ _ _ B) as [_ [E|E]]; [congruence|destruct k; discriminate]. }
    pose proof (finish_count c s1 auth post force pm sub) as FC.
    assert (Al : forall s' o, pre q (finish c s1 auth post force pm sub) = Alive s' o -> same s1 s').
    { intros s' o E. destruct (finish c s1 auth post force pm sub) as [s3 o3|o3]; [|discriminate]. cbn [pre] in E. injection E as <- <-. tauto. }
    destruct P as (_ & _ & P3 & _ & _ & P6).
    assert (Ca : 0 < s_attempt s -> carried s s1).
    { intros A. destruct e as [u v n pw a| | | | | ]; try (destruct P6 as (_ & _ & P6 & _); exact P6). destruct P6 as (_ & _ & _ & _ & _ & _ & _ & _ & _ & _ & _ & _ & _ & P6). destruct (Z.eqb_spec (s_attempt s) 0); [lia|exact P6]. }
    splits.
    + intros m sb H. now apply (Pp m sb H).
    + intros A m sb H. destruct (Pp m sb H) as (_ & V & R). destruct (Ca A) as (_ & _ & C3 & C4 & _). rewrite <- C3, <- C4. auto.
    + intros A s' o E. destruct (Al s' o E) as (S1 & S2 & S3 & S4 & S5 & _). destruct (Ca A) as (C1 & C2 & C3 & C4 & _). splits; congruence.
    + intros u v n pw a -> _ A. destruct P6 as (_ & _ & _ & _ & _ & _ & _ & _ & _ & _ & U & V & _). destruct (Ca A) as (C1 & C2 & _). split; congruence.
    + intros u v n pw a -> A. destruct P6 as (_ & _ & _ & _ & _ & _ & _ & _ & _ & _ & U & V & _ & P6). rewrite A in P6. cbn [Z.eqb] in P6. destruct P6 as (_ & Ev & Er & _).
      assert (W : s_valid s1 = true -> exists b, pw = Some b /\ v = bs "ssh-connection" /\ s_root s1 = b).
      { intros Hv. rewrite Hv in Ev, Er. destruct pw as [b|]; [|discriminate]. exists b. symmetry in Ev. apply beqb_eq in Ev. splits; auto. }
      split.
      * intros m sb H. destruct (Pp m sb H) as (_ & Hv & R). destruct (W Hv) as (b & -> & Hv2 & Hr). exists b. splits; auto. intros ->. auto.
      * intros s' o E. destruct (Al s' o E) as (S1 & S2 & S3 & S4 & S5 & _). rewrite S4, S5. splits; try congruence; exact W.
    + intros N A. specialize (Nz N). lia.
Qed.
Lemma run_user : forall c es s tr fin, sinv c s -> s_success s = false -> 0 < s_attempt s -> run c s es = (tr, fin) ->
  Forall (fun p => (forall m sb, In (m, sb) (dones (snd p)) -> passed c (fst p) m sb /\ s_valid s = true /\ (s_root s = true -> root_ok c (fst p) m)) /\
    (forall u v n pw a, fst p = EReq u v n pw a -> snd p <> [] -> before_colon u = s_user s /\ v = s_service s)) tr.
Proof.
  intros c es. induction es as [|e es IH]; intros s tr fin I Hs A H; cbn [run] in H; [injection H as <- <-; constructor|].
  destruct (step_user c s e I Hs) as (U1 & U2 & U3 & U4 & _). specialize (U2 A). specialize (U3 A).
  assert (X : xinv s (s_attempt s =? 0) (match s_kbd s with Some _ => false | None => true end)).
  { unfold xinv. splits; auto; destruct (s_kbd s) eqn:K; auto; try congruence. intros E. destruct I as [[I _]|[_ I]]; [lia|]. rewrite K in I. destruct I; congruence. }
  pose proof (step_count c s e _ _ I Hs X) as Sc.
  destruct (step c s e) as [s' o|o].
  - destruct (run c s' es) as [tr' fin'] eqn:R. injection H as <- <-. constructor.
    + cbn [fst snd]. cbn [outs] in *. split; [intros m sb J; split; eauto|]. intros u v n pw a E No. eapply U4; eauto.
    + destruct (U3 s' o eq_refl) as (V1 & V2 & V3 & V4 & V5). destruct (s_success s') eqn:Su.
      * destruct (run_done c es s' Su) as (tr2 & R2 & F2). rewrite R in R2. injection R2 as -> ->. eapply Forall_impl; [|exact F2]. intros [e' o'] E. cbn [fst snd] in *. subst o'. split; [intros m sb []|congruence].
      * destruct Sc as (_ & _ & Sc & _). destruct (Sc eq_refl) as [Si _]. specialize (IH s' tr' fin' Si Su V5 R). rewrite V1, V2, V3, V4 in IH. exact IH.
  - injection H as <- <-. constructor; [|constructor]. cbn [fst snd]. cbn [outs] in *. split; [intros m sb J; split; eauto|]. intros u v n pw a E No. eapply U4; eauto.
Qed.
(** From the start of the connection *)
Lemma run_init : forall c es s tr fin, sinv c s -> s_success s = false -> s_attempt s = 0 -> run c s es = (tr, fin) ->
  (forall e o m sb, In (e, o) tr -> In (m, sb) (dones o) -> passed c e m sb /\
     exists b, first_request tr = Some (bs "ssh-connection", Some b) /\ (b = true -> root_ok c e m)) /\
  (exists U V, forall u v n pw a o, In (EReq u v n pw a, o) tr -> o <> [] -> before_colon u = U /\ v = V).
Proof.
  intros c es. induction es as [|e es IH]; intros s tr fin I Hs A H; cbn [run] in H; [injection H as <- <-; split; [intros e o m sb []|exists [], []; intros u v n pw a o []]|].
  destruct (step_user c s e I Hs) as (U1 & _ & _ & _ & U5 & U6).
  assert (X : xinv s (s_attempt s =? 0) (match s_kbd s with Some _ => false | None => true end)).
  { unfold xinv. splits; auto; destruct (s_kbd s) eqn:K; auto; try congruence. intros E. destruct I as [[_ I]|[I _]]; [subst s; discriminate|lia]. }
  pose proof (step_count c s e _ _ I Hs X) as Sc.
  assert (K : is_req e \/ ~ is_req e) by (destruct e; cbn; auto). destruct K as [K|K].
  - destruct e as [u v n pw a| | | | | ]; try contradiction. destruct (U5 u v n pw a eq_refl A) as [W1 W2]. clear U5 U6 K. destruct (step c s (EReq u v n pw a)) as [s' o|o]; cbn [outs] in *.
    + destruct (run c s' es) as [tr' fin'] eqn:R. injection H as <- <-. destruct (W2 s' o eq_refl) as (V5 & V1 & V2 & V3).
      assert (T : Forall (fun p => (forall m sb, In (m, sb) (dones (snd p)) -> passed c (fst p) m sb /\ s_valid s' = true /\ (s_root s' = true -> root_ok c (fst p) m)) /\
                    (forall u v n pw a, fst p = EReq u v n pw a -> snd p <> [] -> before_colon u = s_user s' /\ v = s_service s')) tr').
      { destruct (s_success s') eqn:Su.
        - destruct (run_done c es s' Su) as (tr2 & R2 & F2). rewrite R in R2. injection R2 as -> ->. eapply Forall_impl; [|exact F2]. intros [e' o'] E. cbn [fst snd] in *. subst o'. split; [intros m sb []|congruence].
        - destruct Sc as (_ & _ & Sc & _). destruct (Sc eq_refl) as [Si _]. exact (run_user c es s' tr' fin' Si Su V5 R). }
      rewrite Forall_forall in T. split.
      * intros e' o' m sb [E|E] J; cbn [first_request].
        -- injection E as <- <-. split; [eauto|]. destruct (W1 m sb J) as (b & -> & -> & Rt). exists b. auto.
        -- destruct (T _ E) as [T1 _]. cbn [fst snd] in T1. destruct (T1 m sb J) as (P1 & P2 & P3). split; [exact P1|]. destruct (V3 P2) as (b & -> & -> & Rb). exists b. split; [reflexivity|]. intros ->. auto.
      * exists (before_colon u), v. intros u' v' n' pw' a' o' [E|E] No; [injection E as <- <- <- <- <- <-; auto|]. destruct (T _ E) as [_ T2]. cbn [fst snd] in T2. destruct (T2 u' v' n' pw' a' eq_refl No). split; congruence.
    + injection H as <- <-. split.
      * intros e' o' m sb [E|[]] J. injection E as <- <-. split; [eauto|]. destruct (W1 m sb J) as (b & -> & -> & Rt). exists b. auto.
      * exists (before_colon u), v. intros u' v' n' pw' a' o' [E|[]] No. injection E as <- <- <- <- <- <-. auto.
  - destruct (U6 K A) as [W1 W2]. destruct (step c s e) as [s' o|o]; cbn [outs] in *.
    + destruct (run c s' es) as [tr' fin'] eqn:R. injection H as <- <-. subst o. destruct (W2 s' [] eq_refl) as [W3 Su]. clear W2.
      destruct Sc as (_ & _ & Sc & _). destruct (Sc Su) as [Si _]. destruct (IH s' tr' fin' Si Su W3 R) as [J1 (UU & VV & J2)].
      split.
      * intros e' o' m sb [E|E] J; [injection E as <- <-; destruct J|]. destruct (J1 e' o' m sb E J) as (P1 & b & P2 & P3). split; [exact P1|]. exists b. split; [|exact P3]. destruct e; [exfalso; apply K; exact Logic.I|..]; exact P2.
      * exists UU, VV. intros u' v' n' pw' a' o' [E|E] No; [injection E as -> <-; congruence|]. eapply J2; eauto.
    + injection H as <- <-. subst o. split; [intros e' o' m sb [E|[]] J; injection E as <- <-; destruct J|]. exists [], []. intros u' v' n' pw' a' o' [E|[]] No. injection E as -> <-. congruence.
Qed.
