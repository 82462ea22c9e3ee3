From Verif Require Import Base SshbufModel SshbufSpec SshbufProof WireSpec WireProof Dec SclientModel SclientSpec SclientProof SclientProof2 SclientProof3 SuploadModel SuploadSpec.
Local Open Scope Z_scope.

Section Keeps.
Variable h R0 : list Z.
Variable app : bool.
Notation keeps := (keeps h R0 app).
Lemma keeps_prefix1 : forall tr x o R, keeps (tr ++ [x]) o R -> exists o' R', keeps tr o' R'.
Proof.
  intros tr x o R K. remember (tr ++ [x]) as t eqn:E. revert tr x E. induction K; intros tr0 x0 E; try (apply app_inj_tail in E; destruct E as [<- <-]; eauto); try (eapply IHK; eassumption). destruct tr0; discriminate.
Qed.
Lemma keeps_prefix : forall b a o R, keeps (a ++ b) o R -> exists o' R', keeps a o' R'.
Proof.
  induction b as [|x b IH] using rev_ind; intros a o R K; [rewrite app_nil_r in K; eauto|]. rewrite app_assoc in K. apply keeps_prefix1 in K. destruct K as (o' & R' & K). eapply IH; eauto.
Qed.
Lemma keeps_recv : forall tr m o R, keeps (tr ++ [TRecv m]) o R -> exists o1 id off d b o2 R1 code, keeps tr (o1 ++ (id, off, d, b) :: o2) R1 /\ status_reply id code m.
Proof.
  intros tr m o R K. remember (tr ++ [TRecv m]) as t eqn:E. revert tr m E. induction K; intros tr0 m0 E; try (eapply IHK; eassumption).
  - destruct tr0; discriminate.
  - apply app_inj_tail in E. destruct E as [_ E]. discriminate.
  - apply app_inj_tail in E. destruct E as [<- E]. injection E as <-. exists o1, id, off, d, true, o2, R, 0. auto.
  - apply app_inj_tail in E. destruct E as [<- E]. injection E as <-. exists o1, id, off, d, done, o2, R, code. auto.
Qed.
Definition opens := list (Z * Z * list Z * bool).
Definition closed (G : opens -> list Z -> Prop) : Prop :=
  (forall o1 o2 id off d R, app = false -> G (o1 ++ (id, off, d, false) :: o2) R -> G (o1 ++ (id, off, d, true) :: o2) (write_at R off d)) /\
  (forall o1 o2 id off d R, app = true -> (forall x, In x o1 -> snd x = true) -> G (o1 ++ (id, off, d, false) :: o2) R -> G (o1 ++ (id, off, d, true) :: o2) (R ++ d)).
Lemma grow_send : forall tr m (G G' : opens -> list Z -> Prop), (forall o R, keeps tr o R -> G o R) -> closed G' ->
  (forall o R id off d, G o R -> stores_msg h m id off d -> G' (o ++ [(id, off, d, false)]) R) -> forall o R, keeps (tr ++ [TSend m]) o R -> G' o R.
Proof.
  intros tr m G G' HG [C1 C2] HS o R K. remember (tr ++ [TSend m]) as t eqn:E. revert E. induction K; intros E; auto.
  - destruct tr; discriminate.
  - apply app_inj_tail in E. destruct E as [<- E]. injection E as <-. eapply HS; eauto.
  - apply app_inj_tail in E. destruct E as [_ E]. discriminate.
  - apply app_inj_tail in E. destruct E as [_ E]. discriminate.
Qed.
Lemma grow_recv : forall tr m (G G' : opens -> list Z -> Prop), (forall o R, keeps tr o R -> G o R) -> closed G' ->
  (forall o1 o2 R id off d, G (o1 ++ (id, off, d, true) :: o2) R -> status_reply id 0 m -> G' (o1 ++ o2) R) ->
  (forall id code, code <> 0 -> status_reply id code m -> False) -> forall o R, keeps (tr ++ [TRecv m]) o R -> G' o R.
Proof.
  intros tr m G G' HG [C1 C2] HS HE o R K. remember (tr ++ [TRecv m]) as t eqn:E. revert E. induction K; intros E; auto.
  - destruct tr; discriminate.
  - apply app_inj_tail in E. destruct E as [_ E]. discriminate.
  - apply app_inj_tail in E. destruct E as [<- E]. injection E as <-. eapply HS; eauto.
  - apply app_inj_tail in E. destruct E as [<- E]. injection E as <-. exfalso. eauto.
Qed.
End Keeps.

Lemma status_id : forall id id' code code' m, 0 <= id < 4294967296 -> 0 <= id' < 4294967296 -> status_reply id code m -> status_reply id' code' m -> id = id' /\ code = code'.
Proof.
  intros id id' code code' m H1 H2 (C1 & r1 & ->) (C2 & r2 & E). apply (f_equal (@tl Z)) in E. cbn [tl List.app] in E. apply be4 in E; auto. destruct E as [-> E]. apply be4 in E; auto. destruct E as [-> _]. auto.
Qed.
Lemma enc_string_inj : forall a b r r', zlen a <= 134217724 -> zlen b <= 134217724 -> enc_string a ++ r = enc_string b ++ r' -> a = b /\ r = r'.
Proof. intros a b r r' Ha Hb E. pose proof (get_str_enc a r Ha) as G. rewrite E, (get_str_enc b r' Hb) in G. now injection G as -> ->. Qed.
Lemma write_msg_inj : forall h r d id off d', 0 <= rq_id r < 4294967296 -> 0 <= rq_off r < 18446744073709551616 -> zlen d <= 134217724 ->
  stores_msg h (write_request h r d) id off d' -> id = rq_id r /\ off = rq_off r /\ d' = d.
Proof.
  intros h r d id off d' H1 H2 H3 (E & I1 & I2 & I3). unfold write_request, FXP_WRITE in E. rewrite u32_id in E by (unfold U32; lia). rewrite u64_id in E by (unfold U64; lia). apply (f_equal (@tl Z)) in E. cbn [tl List.app] in E. apply be4 in E; auto. destruct E as [<- E]. apply app_inv_head in E. apply be8 in E; auto. destruct E as [<- E].
  rewrite <- (app_nil_r (enc_string d)), <- (app_nil_r (enc_string d')) in E. apply enc_string_inj in E; auto. destruct E as [<- _]. auto.
Qed.

(** The server's side: the requests it has not answered are those the client
    waits for; every byte sent is in the file or in one of them. *)
Fixpoint chain (lo : Z) (o : list (Z * Z * list Z * bool)) (hi : Z) : Prop :=
  match o with
  | [] => lo = hi
  | (_, off, d, b) :: r => b = false /\ off = lo /\ chain (lo + zlen d) r hi
  end.
Lemma chain_snoc : forall o lo hi id off d, chain lo o hi -> off = hi -> chain lo (o ++ [(id, off, d, false)]) (hi + zlen d).
Proof. induction o as [|[[[i f] e] b] o IH]; intros lo hi id off d C E; cbn [List.app chain] in *; [subst; auto|]. destruct C as (C1 & C2 & C3). auto. Qed.
Section Side.
Variable L R0 : list Z.
Variable app : bool.
Variable start : Z.
Definition ukey (r : req) : Z * Z * list Z := (rq_id r, rq_off r, part L (rq_off r) (rq_len r)).
Record side (acks : list req) (hi : Z) (o : list (Z * Z * list Z * bool)) (R : list Z) : Prop := mkSide {
  g_keys : map fst o = map ukey acks;
  g_cov : forall pos, start <= pos < hi -> (pos < zlen R /\ byte_at R pos = byte_at L pos) \/ exists id off d, In (id, off, d, false) o /\ off <= pos < off + zlen d;
  g_low : forall pos, 0 <= pos < start -> byte_at R pos = byte_at R0 pos;
  g_len : zlen R0 <= zlen R <= Z.max (zlen R0) hi;
  g_app : app = true -> exists o1 o2, o = o1 ++ o2 /\ (forall x, In x o1 -> snd x = true) /\ chain (zlen R) o2 hi }.
Definition reqs_ok (acks : list req) (hi : Z) : Prop := 0 <= start <= hi /\ (hi <= zlen L \/ hi = start) /\ forall r, In r acks -> start <= rq_off r /\ 0 < rq_len r /\ rq_off r + rq_len r <= hi /\ hi <= zlen L.
Lemma key_in : forall acks hi o R id off d b, side acks hi o R -> reqs_ok acks hi -> In (id, off, d, b) o -> d = part L off (zlen d) /\ start <= off /\ 0 < zlen d /\ off + zlen d <= hi /\ hi <= zlen L.
Proof.
  intros acks hi o R id off d b S (K0 & _ & K) Hin. apply (in_map fst) in Hin. rewrite (g_keys _ _ _ _ S) in Hin. apply in_map_iff in Hin. destruct Hin as (r & E & Hr). cbn [fst] in E. injection E as _ <- <-. destruct (K r Hr) as (K1 & K2 & K3 & K4). rewrite part_len by lia. replace (Z.min (rq_len r) (Z.max 0 (zlen L - rq_off r))) with (rq_len r) by lia. auto.
Qed.
Lemma split_at : forall (o1 o1' o2 o2' : list (Z * Z * list Z * bool)) x, (forall y, In y o1 -> snd y = true) -> (forall y, In y o1' -> snd y = true) -> (forall y, In y o2' -> snd y = false) -> snd x = false -> o1 ++ x :: o2 = o1' ++ o2' -> o1' = o1 /\ o2' = x :: o2.
Proof.
  induction o1 as [|y o1 IH]; intros [|y' o1'] o2 o2' x H1 H2 H3 Hx E; cbn [List.app] in E.
  - auto.
  - injection E as -> _. rewrite (H2 y' (or_introl eq_refl)) in Hx. discriminate.
  - subst o2'. specialize (H3 y (or_introl eq_refl)). rewrite (H1 y (or_introl eq_refl)) in H3. discriminate.
  - injection E as -> E. destruct (IH o1' o2 o2' x) as [-> ->]; auto; intros z Hz; [apply H1|apply H2]; now right.
Qed.
Lemma chain_false : forall o lo hi x, chain lo o hi -> In x o -> snd x = false.
Proof. induction o as [|[[[i f] e] b] o IH]; intros lo hi x C H; [destruct H|]. cbn [chain] in C. destruct C as (C1 & _ & C3). destruct H as [<-|H]; [exact C1|eapply IH; eauto]. Qed.
Lemma side_write : forall acks hi o1 o2 id off d R, reqs_ok acks hi -> side acks hi (o1 ++ (id, off, d, false) :: o2) R ->
  (app = true -> (forall x, In x o1 -> snd x = true) /\ off = zlen R) -> side acks hi (o1 ++ (id, off, d, true) :: o2) (write_at R off d).
Proof.
  intros acks hi o1 o2 id off d R K S Ha. destruct (key_in _ _ _ _ id off d false S K ltac:(apply in_app_iff; right; now left)) as (D1 & D2 & D3 & D4 & D5). destruct K as ([K0 K0'] & K1 & K2). destruct S as [Sk Sc Sl Sn Sa].
  assert (Wl : zlen (write_at R off d) = Z.max (zlen R) (off + zlen d)) by (rewrite write_len by lia; replace (zlen d =? 0) with false by lia; reflexivity).
  assert (Wb : forall p, 0 <= p -> byte_at (write_at R off d) p = if (off <=? p) && (p <? off + zlen d) then byte_at L p else byte_at R p).
  { intros p Hp. rewrite write_byte by lia. destruct ((off <=? p) && (p <? off + zlen d)) eqn:E; [|reflexivity]. rewrite D1, part_byte by lia. f_equal. lia. }
  constructor.
  - rewrite map_app in *. exact Sk.
  - intros pos Hp. destruct (Z_lt_dec pos off) as [Q|Q]; [|destruct (Z_lt_dec pos (off + zlen d)) as [Q2|Q2]].
    2:{ left. split; [lia|]. rewrite Wb by lia. replace ((off <=? pos) && (pos <? off + zlen d)) with true by lia. reflexivity. }
    all: destruct (Sc pos Hp) as [[B1 B2]|(i & f & e & Hin & Hr)]; [left; split; [lia|]; rewrite Wb by lia; destruct ((off <=? pos) && (pos <? off + zlen d)); auto|right; exists i, f, e; split; [|exact Hr]; apply in_app_iff in Hin; apply in_app_iff; destruct Hin as [Hin|[Hin|Hin]]; [now left|injection Hin as -> -> ->; lia|right; now right]].
  - intros pos Hp. rewrite Wb by lia. replace (off <=? pos) with false by lia. cbn [andb]. auto.
  - rewrite Wl. lia.
  - intros Ea. destruct (Ha Ea) as [Ha1 Ha2]. destruct (Sa Ea) as (p1 & p2 & Ep & Hp1 & C). destruct (split_at o1 p1 o2 p2 (id, off, d, false) Ha1 Hp1) as [-> ->]; auto; [intros y Hy; eapply chain_false; eauto|]. cbn [chain] in C. destruct C as (_ & _ & C). exists (o1 ++ [(id, off, d, true)]), o2. split; [rewrite <- app_assoc; reflexivity|]. split; [intros x Hx; apply in_app_iff in Hx; destruct Hx as [Hx|[<-|[]]]; auto|]. rewrite Wl. pose proof (zlen_nonneg _ R). replace (Z.max (zlen R) (off + zlen d)) with (zlen R + zlen d) by lia. exact C.
Qed.
Lemma write_end : forall (R d : list Z), write_at R (zlen R) d = R ++ d.
Proof.
  intros R d. unfold write_at. destruct d as [|x d]; [now rewrite app_nil_r|]. rewrite Z.sub_diag. change (zeros 0) with (@nil Z). rewrite app_nil_r, ztake_all by lia. f_equal. rewrite <- app_nil_r. f_equal. unfold zdrop. apply skipn_all2. pose proof (zlen_nonneg _ (x :: d)). unfold zlen in *. lia.
Qed.
Lemma side_closed : forall acks hi, reqs_ok acks hi -> closed app (side acks hi).
Proof.
  intros acks hi K. split; intros o1 o2 id off d R Ea.
  - intros S. apply side_write; auto. intros Q. congruence.
  - intros Ho1 S. destruct (g_app _ _ _ _ S Ea) as (p1 & p2 & Ep & Hp1 & C). destruct (split_at o1 p1 o2 p2 (id, off, d, false) Ho1 Hp1) as [-> ->]; auto; [intros y Hy; eapply chain_false; eauto|]. cbn [chain] in C. destruct C as (_ & -> & _). rewrite <- write_end. apply side_write; auto.
Qed.
Lemma side_send : forall acks hi o R r, side acks hi o R -> reqs_ok acks hi -> rq_off r = hi -> 0 < rq_len r -> hi + rq_len r <= zlen L -> side (acks ++ [r]) (hi + rq_len r) (o ++ [(ukey r, false)]) R.
Proof.
  intros acks hi o R r S ((K0 & K0') & _ & K2) Eo Hl Hh. destruct S as [Sk Sc Sl Sn Sa]. assert (Lp : zlen (part L (rq_off r) (rq_len r)) = rq_len r) by (rewrite part_len by lia; lia). constructor.
  - rewrite !map_app, Sk. reflexivity.
  - intros pos Hp. destruct (Z_lt_dec pos hi) as [Q|Q].
    + destruct (Sc pos ltac:(lia)) as [B|(i & f & e & Hin & Hr)]; [now left|]. right. exists i, f, e. split; [apply in_app_iff; now left|exact Hr].
    + right. exists (rq_id r), (rq_off r), (part L (rq_off r) (rq_len r)). split; [apply in_app_iff; right; now left|]. lia.
  - exact Sl.
  - lia.
  - intros Ea. destruct (Sa Ea) as (p1 & p2 & -> & Hp1 & C). exists p1, (p2 ++ [(ukey r, false)]). split; [now rewrite <- app_assoc|]. split; [exact Hp1|]. rewrite <- Lp. apply chain_snoc; auto.
Qed.
Lemma side_ack : forall a1 r a2 hi o1 o2 id off d R, NoDup (map rq_id (a1 ++ r :: a2)) -> side (a1 ++ r :: a2) hi (o1 ++ (id, off, d, true) :: o2) R -> id = rq_id r -> side (a1 ++ a2) hi (o1 ++ o2) R.
Proof.
  intros a1 r a2 hi o1 o2 id off d R N S ->. destruct S as [Sk Sc Sl Sn Sa].
  assert (Kk : map fst o1 = map ukey a1 /\ map fst o2 = map ukey a2).
  { clear - N Sk. revert a1 N Sk. induction o1 as [|x o1 IH]; intros [|y a1] N Sk; cbn [List.app map fst] in *.
    - injection Sk as _ _ Q. split; [reflexivity|exact Q].
    - injection Sk as E _ _ _. exfalso. rewrite NoDup_cons_iff in N. apply (proj1 N). rewrite <- E. apply in_map_iff. exists r. split; [reflexivity|apply in_app_iff; right; now left].
    - exfalso. injection Sk as E Sk. rewrite NoDup_cons_iff in N. apply (proj1 N). assert (Q : In (rq_id r) (map (fun k => fst (fst k)) (map fst (o1 ++ (rq_id r, off, d, true) :: o2)))) by (rewrite map_app; cbn [map fst]; rewrite map_app; apply in_app_iff; right; now left). rewrite Sk, map_map in Q. cbn [ukey fst] in Q. exact Q.
    - injection Sk as E Sk. rewrite NoDup_cons_iff in N. destruct (IH a1 (proj2 N) Sk) as [-> ->]. rewrite E. auto. }
  destruct Kk as [Kk1 Kk2]. constructor.
  - now rewrite !map_app, Kk1, Kk2.
  - intros pos Hp. destruct (Sc pos Hp) as [B|(i & f & e & Hin & Hr)]; [now left|]. right. exists i, f, e. split; [|exact Hr]. apply in_app_iff in Hin. apply in_app_iff. destruct Hin as [Hin|[Hin|Hin]]; [now left|discriminate|now right].
  - exact Sl.
  - exact Sn.
  - intros Ea. destruct (Sa Ea) as (p1 & p2 & Ep & Hp1 & C). assert (Hf : forall y, In y p2 -> snd y = false) by (intros y Hy; eapply chain_false; eauto). clear - Ep Hp1 C Hf. revert p1 Ep Hp1. induction o1 as [|x o1 IH]; intros [|y p1] Ep Hp1; cbn [List.app] in Ep.
    + exfalso. subst p2. specialize (Hf _ (or_introl eq_refl)). discriminate.
    + injection Ep as <- ->. exists p1, p2. split; [reflexivity|]. split; [|exact C]. intros z Hz. apply Hp1. now right.
    + exfalso. assert (Q : In (rq_id r, off, d, true) p2) by (rewrite <- Ep; right; apply in_app_iff; right; now left). specialize (Hf _ Q). discriminate.
    + injection Ep as -> Ep. destruct (IH p1 Ep (fun z Hz => Hp1 z (or_intror Hz))) as (q1 & q2 & E & Q1 & Q2). exists (y :: q1), q2. cbn [List.app]. rewrite E. split; [reflexivity|]. split; [|exact Q2]. intros z [<-|Hz]; [apply Hp1; now left|auto].
Qed.
End Side.
