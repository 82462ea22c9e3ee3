(** Proofs for C35: whole lines. *)
From Coq Require Import String.
From Verif Require Import Base Text MiscNumModel AuthOptModel AuthOptSpec AuthOptProof2.

Lemma at_end_iff : forall s, at_end s = true <-> blank_or_end s.
Proof.
  intros [|c r]; unfold blank_or_end; cbn [at_end]; split; intros H; auto.
  - right. exists c, r. split; [reflexivity|lia].
  - destruct H as [H|(c' & r' & E & H)]; [discriminate|]. injection E as <- <-. lia.
Qed.
Lemma head_low : forall c x, tolower c = x -> 97 <= x <= 122 -> (c =? 32) || (c =? 9) = false.
Proof. intros c x H Hx. unfold tolower, isupper in H. destruct ((65 <=? c) && (c <=? 90)) eqn:E; lia. Qed.
Lemma word_head : forall w x t r, word (x :: w) t -> 97 <= x <= 122 -> at_end (t ++ r) = false.
Proof. intros w x [|c t] r W H; [discriminate|]. cbn in W. injection W as W _. cbn [app at_end]. now apply (head_low c x). Qed.
Lemma spelled_head : forall i t r, i <> Empty -> spelled i t -> at_end (t ++ r) = false.
Proof.
  intros i t r NE S.
  assert (V : forall w x v, valued (x :: w) v t -> 97 <= x <= 122 -> at_end (t ++ r) = false).
  { intros w x v (_ & k & W & ->) H. rewrite <- app_assoc. now apply (word_head w x). }
  destruct i as [| |f b|v|v|v|v|v|v|v|v|]; try contradiction; cbn [spelled] in S.
  - eapply word_head; [exact S|vm_compute; split; discriminate].
  - eapply word_head; [exact S|vm_compute; split; discriminate].
  - destruct b; [destruct f; (eapply word_head; [exact S|vm_compute; split; discriminate])|eapply word_head; [exact S|vm_compute; split; discriminate]].
  - eapply V; [exact S|vm_compute; split; discriminate].
  - eapply V; [exact S|vm_compute; split; discriminate].
  - eapply V; [exact S|vm_compute; split; discriminate].
  - eapply V; [exact S|vm_compute; split; discriminate].
  - eapply V; [exact S|vm_compute; split; discriminate].
  - eapply V; [exact S|vm_compute; split; discriminate].
  - eapply V; [exact S|vm_compute; split; discriminate].
  - eapply V; [exact S|vm_compute; split; discriminate].
Qed.

Section Line.
Variable serv : list Z -> option Z.
Variable ptime : list Z -> option Z.
Notation effect := (effect serv ptime).
Notation effects := (effects serv ptime).
Notation one_option := (one_option serv ptime).
Notation parse_loop := (parse_loop serv ptime).

Lemma parse_fuel : forall fuel o s, (length s < fuel)%nat -> parse_loop fuel o s <> None.
Proof.
  induction fuel as [|fuel IH]; intros o s H; [lia|]. cbn [AuthOptModel.parse_loop]. destruct (at_end s); [discriminate|].
  destruct (one_option o s) as [[o1 s1]|] eqn:E; [|discriminate]. destruct (at_end s1); [discriminate|]. destruct s1 as [|c s1]; [discriminate|].
  destruct (negb (c =? 44)); [discriminate|]. destruct (is_nil s1); [discriminate|]. apply IH.
  apply opt_forward in E as [(i & t & _ & -> & _)|[_ <-]]; [rewrite app_length in H|]; cbn in H; lia.
Qed.
Lemma last_cons : forall (t : list Z) ts, ts <> [] -> last (t :: ts) [] = last ts [].
Proof. intros t [|x ts] H; [contradiction|reflexivity]. Qed.
Lemma join_cons : forall t ts, ts <> [] -> join 44 (t :: ts) = t ++ 44 :: join 44 ts.
Proof. intros t [|x ts] H; [contradiction|reflexivity]. Qed.
Lemma loop_forward : forall fuel o s o', parse_loop fuel o s = Some (Some o') -> exists its tail, reads s its tail /\ effects its o o'.
Proof.
  induction fuel as [|fuel IH]; intros o s o' H; [discriminate|]. cbn [AuthOptModel.parse_loop] in H. destruct (at_end s) eqn:Ea.
  { injection H as <-. exists [Empty], s. split; [exists [[]]|exists o; cbn; auto]. repeat split; [repeat constructor|discriminate|now apply at_end_iff|cbn; intros; lia]. }
  destruct (one_option o s) as [[o1 s1]|] eqn:E; [|discriminate].
  assert (Q : exists i t, s = t ++ s1 /\ spelled i t /\ effect i o o1).
  { apply opt_forward in E as [(i & t & _ & -> & S & F)|[-> ->]]; [exists i, t; auto|exists Empty, []; cbn; auto]. }
  destruct Q as (i & t & -> & S & F). clear E Ea. destruct (at_end s1) eqn:Ea.
  { injection H as <-. exists [i], s1. split; [exists [t]|exists o1; cbn; auto]. repeat split; [repeat constructor; assumption|discriminate|now apply at_end_iff|cbn; intros; lia]. }
  destruct s1 as [|c s1]; [discriminate|]. destruct (negb (c =? 44)) eqn:Ec; [discriminate|]. assert (c = 44) by lia. subst c.
  destruct (is_nil s1) eqn:En; [discriminate|]. destruct (IH _ _ _ H) as (its & tail & (ts & R1 & R2 & R3 & R4 & R5) & R6).
  exists (i :: its), tail. split; [|exists o1; auto]. exists (t :: ts). repeat split; [now constructor|discriminate| |assumption|].
  - rewrite join_cons by assumption. rewrite <- app_assoc. cbn [app]. now rewrite R3.
  - intros _ ->. rewrite last_cons by assumption. destruct ts as [|x [|y ts]]; [contradiction| |apply R5; [cbn; lia|reflexivity]].
    cbn in R3 |- *. rewrite app_nil_r in R3. subst s1. now destruct x.
Qed.
Lemma loop_backward : forall its ts, Forall2 spelled its ts -> forall o o' tail fuel, ts <> [] -> blank_or_end tail ->
  ((2 <= length ts)%nat -> tail = [] -> last ts [] <> []) -> effects its o o' -> (length (join 44 ts ++ tail) < fuel)%nat ->
  parse_loop fuel o (join 44 ts ++ tail) = Some (Some o').
Proof.
  induction 1 as [|i t its ts S F IH]; intros o o' tail fuel NE B C E L; [contradiction|]. destruct fuel as [|fuel]; [lia|]. cbn [AuthOptModel.parse_loop].
  destruct E as (o1 & E1 & E2). destruct ts as [|t2 ts].
  - inversion F; subst. cbn in E2. subst o1. cbn [join]. apply at_end_iff in B.
    assert (D : i = Empty \/ i <> Empty) by (destruct i; auto; right; discriminate). destruct D as [-> |D].
    + cbn in S, E1. subst. cbn [app]. now rewrite B.
    + rewrite (spelled_head i t tail D S). rewrite (opt_backward serv ptime i t tail o o' D S E1). now rewrite B.
  - assert (NE2 : t2 :: ts <> []) by discriminate. rewrite join_cons in * by assumption. rewrite <- app_assoc in *. cbn [app] in *.
    set (s1 := join 44 (t2 :: ts) ++ tail) in *.
    assert (N : is_nil s1 = false).
    { unfold s1. destruct ts as [|t3 ts].
      - cbn [join]. destruct t2 as [|]; [|reflexivity]. destruct tail; [|reflexivity]. exfalso. apply C; [cbn; lia|reflexivity|reflexivity].
      - rewrite join_cons by discriminate. destruct t2; reflexivity. }
    assert (G : one_option o (t ++ 44 :: s1) = Some (o1, 44 :: s1) /\ at_end (t ++ 44 :: s1) = false).
    { assert (D : i = Empty \/ i <> Empty) by (destruct i; auto; right; discriminate). destruct D as [-> |D].
      - cbn in S, E1. subst. cbn [app]. split; [apply opt_comma|reflexivity].
      - split; [now apply (opt_backward serv ptime i)|now apply (spelled_head i)]. }
    destruct G as [G1 G2]. rewrite G2, G1. change (at_end (44 :: s1)) with false. cbv iota. change (44 =? 44) with true. cbn [negb]. rewrite N.
    apply IH; [assumption|assumption| |assumption|].
    + intros Hl Ht. specialize (C ltac:(clear -Hl; cbn [length] in Hl |- *; lia) Ht). now rewrite last_cons in C.
    + fold s1. rewrite app_length in L. cbn [length] in L. clear - L. lia.
Qed.
Lemma parse_iff : forall line o, sshauthopt_parse serv ptime (Some line) = Some o <->
  exists its tail, reads line its tail /\ effects its sshauthopt_new_with_keys_defaults o.
Proof.
  intros line o. unfold sshauthopt_parse. split.
  - destruct (parse_loop (S (length line)) sshauthopt_new_with_keys_defaults line) as [r|] eqn:E; [|discriminate]. intros ->. now apply loop_forward in E.
  - intros (its & tail & (ts & R1 & R2 & -> & R4 & R5) & R6). rewrite (loop_backward its ts R1 _ o tail); auto.
Qed.

(** ** Rights *)
Lemma effect_flag : forall r i o o', effect i o o' -> flag r o' = match says r i with Some b => if b then 1 else 0 | None => flag r o end.
Proof.
  intros r i o o' E. destruct o as [f1 f2 f3 f4 f5 f6 f7 f8 f9 f10 f11 f12 f13 f14 f15 f16 f17 f18].
  destruct i as [| |f b|v|v|v|v|v|v|v|v|]; cbn [AuthOptSpec.effect] in E.
  - subst o'. destruct r; reflexivity.
  - subst o'. destruct r; reflexivity.
  - subst o'. destruct r, f, b; reflexivity.
  - destruct E as [_ ->]. destruct r; reflexivity.
  - destruct E as [_ ->]. destruct r; reflexivity.
  - destruct E as [_ ->]. destruct r; reflexivity.
  - destruct E as (t & _ & _ & ->). destruct r; reflexivity.
  - destruct E as (_ & n & x & _ & _ & [[_ ->]|[_ ->]]); destruct r; reflexivity.
  - destruct E as (_ & _ & ->). destruct r; reflexivity.
  - destruct E as (_ & w & _ & _ & ->). destruct r; reflexivity.
  - destruct E as (n & _ & ->). destruct r; reflexivity.
  - subst o'. destruct r; reflexivity.
Qed.
Lemma effects_app : forall a b o o', effects (a ++ b) o o' <-> exists o1, effects a o o1 /\ effects b o1 o'.
Proof.
  induction a as [|i a IH]; intros b o o'; cbn [app AuthOptSpec.effects].
  - split; [intros H; exists o; auto|intros (o1 & -> & H); assumption].
  - split.
    + intros (o1 & H1 & H2). apply IH in H2 as (o2 & H2 & H3). exists o2. split; [exists o1; auto|assumption].
    + intros (o2 & (o1 & H1 & H2) & H3). exists o1. split; [assumption|]. apply IH. exists o2. auto.
Qed.
Lemma effects_flag : forall r its o o', effects its o o' ->
  ((forall i, In i its -> says r i = None) /\ flag r o' = flag r o) \/
  (exists a i b v, its = a ++ i :: b /\ says r i = Some v /\ (forall j, In j b -> says r j = None) /\ flag r o' = if v then 1 else 0).
Proof.
  intros r its. induction its as [|i its IH] using rev_ind; intros o o' E.
  - cbn in E. subst. left. split; [intros ? []|reflexivity].
  - apply effects_app in E as (o1 & E1 & (o2 & E2 & ->)). pose proof (effect_flag r _ _ _ E2) as Q. destruct (says r i) as [v|] eqn:Ei.
    + right. exists its, i, [], v. repeat split; auto. intros ? [].
    + destruct (IH _ _ E1) as [[H1 H2]|(a & j & b & v & -> & H1 & H2 & H3)].
      * left. split; [|congruence]. intros j Hj. apply in_app_iff in Hj as [Hj|[<- |[]]]; auto.
      * right. exists a, j, (b ++ [i]), v. split; [now rewrite <- app_assoc|]. split; [assumption|]. split; [|congruence].
        intros k Hk. apply in_app_iff in Hk as [Hk|[<- |[]]]; auto.
Qed.
End Line.

(** ** Where the options end *)
Definition plain (c : Z) : Prop := c <> 32 /\ c <> 9 /\ c <> 34 /\ c <> 92.
Lemma advance_plain : forall c r, plain c -> advance false (c :: r) = advance false r.
Proof.
  intros c r (H1 & H2 & H3 & H4). cbn [advance negb andb]. replace ((c =? 32) || (c =? 9)) with false by lia.
  destruct r as [|d r]; [replace (c =? 34) with false by lia; reflexivity|]. replace ((c =? 92) && (d =? 34)) with false by lia. now replace (c =? 34) with false by lia.
Qed.
Lemma advance_plains : forall t r, Forall plain t -> advance false (t ++ r) = advance false r.
Proof. induction t as [|c t IH]; intros r H; [reflexivity|]. inversion H; subst. cbn [app]. rewrite advance_plain by assumption. now apply IH. Qed.
Lemma word_plain : forall w t, word w t -> Forall (fun c => 97 <= c <= 122 \/ c = 45 \/ 48 <= c <= 57) w -> Forall plain t.
Proof.
  unfold word. intros w t W H. rewrite <- W in H. clear W. induction t as [|c t IH]; [constructor|]. cbn in H. inversion H as [|? ? Hc Ht]; subst. constructor; [|auto].
  unfold plain. unfold tolower, isupper in Hc. destruct ((65 <=? c) && (c <=? 90)) eqn:E; lia.
Qed.
Lemma advance_quoted : forall v r, last v 0 <> 92 -> advance true (escape v ++ 34 :: r) = advance false r.
Proof.
  induction v as [|c v IH]; intros r L.
  - cbn [escape flat_map app advance negb andb]. destruct r as [|d r]; [reflexivity|]. reflexivity.
  - rewrite escape_cons. assert (L' : last v 0 <> 92) by (destruct v; [cbn; lia|assumption]). destruct (c =? 34) eqn:Ec.
    + cbn [app advance negb andb]. change ((92 =? 92) && (34 =? 34)) with true. cbv iota. now apply IH.
    + cbn [app]. destruct (escape v ++ 34 :: r) as [|d s'] eqn:Es; [destruct (escape v); discriminate|]. cbn [advance negb andb]. fold (advance true (d :: s')).
      replace ((c =? 92) && (d =? 34)) with false.
      * rewrite Ec. change (advance true (d :: s') = advance false r). rewrite <- Es. now apply IH.
      * symmetry. destruct v as [|x v]; [cbn in L; lia|]. rewrite escape_cons in Es. destruct (x =? 34) eqn:Ex; cbn [app] in Es; injection Es as <- _; lia.
Qed.
Lemma advance_spelled : forall i t r, spelled i t -> advance false (t ++ r) = advance false r.
Proof.
  intros i t r S.
  assert (V : forall w v, valued w v t -> Forall (fun c => 97 <= c <= 122 \/ c = 45 \/ 48 <= c <= 57) w -> advance false (t ++ r) = advance false r).
  { intros w v (L & k & W & ->) H. rewrite <- app_assoc, advance_plains by now apply (word_plain w). cbn [app]. rewrite advance_plain by (unfold plain; lia). unfold quoted. cbn [app].
    rewrite <- app_assoc. cbn [app]. cbn [advance negb andb]. change (advance false (34 :: escape v ++ 34 :: r) = advance false r).
    rewrite <- (advance_quoted v r L). cbn [advance negb andb]. change ((34 =? 32) || (34 =? 9)) with false. cbv iota.
    destruct (escape v ++ 34 :: r) as [|d s'] eqn:Es; [destruct (escape v); discriminate|]. reflexivity. }
  assert (C : forall w, word w t -> Forall (fun c => 97 <= c <= 122 \/ c = 45 \/ 48 <= c <= 57) w -> advance false (t ++ r) = advance false r).
  { intros w W H. apply advance_plains. now apply (word_plain w). }
  assert (K : forall w, forallb (fun c => ((97 <=? c) && (c <=? 122)) || (c =? 45) || ((48 <=? c) && (c <=? 57))) w = true -> Forall (fun c => 97 <= c <= 122 \/ c = 45 \/ 48 <= c <= 57) w).
  { intros w H. apply Forall_forall. intros x Hx. rewrite forallb_forall in H. specialize (H x Hx). lia. }
  destruct i as [| |f b|v|v|v|v|v|v|v|v|]; cbn [spelled] in S; try (eapply V; [exact S|apply K; reflexivity]); try (eapply C; [exact S|apply K; reflexivity]).
  - destruct b; [destruct f; (eapply C; [exact S|apply K; reflexivity])|destruct f; (eapply C; [exact S|apply K; reflexivity])].
  - subst t. reflexivity.
Qed.
Lemma advance_end : forall t, blank_or_end t -> advance false t = Some t.
Proof.
  intros t [-> |(c & r & -> & H)]; [reflexivity|]. cbn [advance negb andb]. now replace ((c =? 32) || (c =? 9)) with true by lia.
Qed.
Lemma advance_reads : forall line its tail, reads line its tail -> sshkey_advance_past_options line = Some tail.
Proof.
  intros line its tail (ts & F & NE & -> & B & _). unfold sshkey_advance_past_options. rewrite <- (advance_end tail B).
  revert NE. induction F as [|i t its ts S F IH]; intros NE; [contradiction|]. destruct ts as [|t2 ts].
  - cbn [join]. now apply (advance_spelled i).
  - rewrite join_cons by discriminate. rewrite <- app_assoc, (advance_spelled i) by assumption. cbn [app]. rewrite advance_plain by (unfold plain; lia). now apply IH.
Qed.
