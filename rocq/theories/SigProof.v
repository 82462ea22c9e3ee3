(** Proofs for C76: the file of allowed signers. *)
From Coq Require Import String.
From Verif Require Import Base Text SshbufSpec MatchModel MatchSpec MatchProof MatchProps MiscNumModel AuthOptModel AuthOptSpec AuthOptProof2 AuthOptProof3 CertModel CertSpec CertProof CertProps SigModel SigSpec.
Local Open Scope Z_scope.

(** ** Options *)
Section Opt.
Variable ptime : list Z -> option Z.
Notation sig_option := (sig_option ptime).
Notation sig_loop := (sig_loop ptime).
Notation seffect := (seffect ptime).
Notation seffects := (seffects ptime).

Lemma time_spec : forall s t r, opt_time ptime s = Some (t, r) <-> exists v, s = quoted v ++ r /\ last v 0 <> 92 /\ ptime v = Some t /\ t <> 0.
Proof.
  intros s t r. unfold opt_time. split.
  - destruct (opt_dequote s) as [[v r1]|] eqn:E; [|discriminate]. apply dequote_spec in E as [-> L]. destruct (ptime v) as [x|] eqn:Et; [|discriminate].
    destruct (x =? 0) eqn:E0; [discriminate|]. intros H. injection H as <- <-. exists v. splits; auto. lia.
  - intros (v & -> & L & Et & N). rewrite (proj2 (dequote_spec _ v r) (conj eq_refl L)), Et. now replace (t =? 0) with false by lia.
Qed.
Lemma sopt_forward : forall o s o' r, sig_option o s = Some (o', r) ->
  (exists i t, i <> SNothing /\ s = t ++ r /\ sspelled i t /\ seffect i o o') \/ (o' = o /\ r = s).
Proof.
  intros o s o' r H. unfold SigModel.sig_option in H.
  destruct (opt_flag (bs "cert-authority") false s) as [[b s1]|] eqn:E1.
  { injection H as <- <-. apply flag_spec in E1 as (t & -> & W & B); [|reflexivity]. rewrite B in * by reflexivity. left. exists SAuthority, t. split; [discriminate|]. split; [reflexivity|split; [exact W|reflexivity]]. } clear E1.
  destruct (opt_match (bs "namespaces") s) as [s1|] eqn:E1.
  { apply match_spec in E1 as (k & -> & W); [|reflexivity]. destruct (so_ns o) eqn:En; [discriminate|]. destruct (opt_dequote s1) as [[v s2]|] eqn:Eq; [|discriminate].
    injection H as <- <-. apply dequote_spec in Eq as [-> L]. left. exists (SNamespaces v), (k ++ 61 :: quoted v). split; [discriminate|]. split; [now rewrite <- app_assoc|].
    split; [cbn [sspelled]; now apply valued_app|cbn [SigSpec.seffect]; auto]. } clear E1.
  destruct (opt_match (bs "valid-after") s) as [s1|] eqn:E1.
  { apply match_spec in E1 as (k & -> & W); [|reflexivity]. destruct (so_after o =? 0) eqn:En; [|discriminate]. cbn [negb] in H. destruct (opt_time ptime s1) as [[t s2]|] eqn:Eq; [|discriminate].
    injection H as <- <-. apply time_spec in Eq as (v & -> & L & Et & N). left. exists (SAfter v), (k ++ 61 :: quoted v). split; [discriminate|]. split; [now rewrite <- app_assoc|].
    split; [cbn [sspelled]; now apply valued_app|cbn [SigSpec.seffect]]. split; [lia|]. exists t. auto. } clear E1.
  destruct (opt_match (bs "valid-before") s) as [s1|] eqn:E1.
  { apply match_spec in E1 as (k & -> & W); [|reflexivity]. destruct (so_before o =? 0) eqn:En; [|discriminate]. cbn [negb] in H. destruct (opt_time ptime s1) as [[t s2]|] eqn:Eq; [|discriminate].
    injection H as <- <-. apply time_spec in Eq as (v & -> & L & Et & N). left. exists (SBefore v), (k ++ 61 :: quoted v). split; [discriminate|]. split; [now rewrite <- app_assoc|].
    split; [cbn [sspelled]; now apply valued_app|cbn [SigSpec.seffect]]. split; [lia|]. exists t. auto. } clear E1.
  injection H as <- <-. right. auto.
Qed.
Ltac nones := repeat match goal with
  | W : word ?k ?t |- context [opt_flag ?w false (?t ++ ?r)] => rewrite (flag_none w k t r W eq_refl)
  | W : word ?k ?t |- context [opt_match ?w (?t ++ ?r)] => rewrite (match_none w k t r W eq_refl)
  end.
Lemma sopt_backward : forall i t r o o', i <> SNothing -> sspelled i t -> seffect i o o' -> sig_option o (t ++ r) = Some (o', r).
Proof.
  intros i t r o o' NE W E. destruct i as [|v|v|v|]; try contradiction; unfold SigModel.sig_option; cbn [sspelled SigSpec.seffect] in W, E.
  - rewrite (flag_yes (bs "cert-authority") false t r eq_refl W); [now subst|discriminate].
  - destruct W as (L & k & W & ->). rewrite <- app_assoc. nones. cbn [app]. rewrite (match_yes _ k _ eq_refl W). destruct E as [E ->]. rewrite E.
    now rewrite (proj2 (dequote_spec _ v r) (conj eq_refl L)).
  - destruct W as (L & k & W & ->). rewrite <- app_assoc. nones. cbn [app]. rewrite (match_yes _ k _ eq_refl W). destruct E as (E & x & Et & N & ->). rewrite E. cbn [Z.eqb negb].
    rewrite (proj2 (time_spec _ x r)); [reflexivity|]. exists v. auto.
  - destruct W as (L & k & W & ->). rewrite <- app_assoc. nones. cbn [app]. rewrite (match_yes _ k _ eq_refl W). destruct E as (E & x & Et & N & ->). rewrite E. cbn [Z.eqb negb].
    rewrite (proj2 (time_spec _ x r)); [reflexivity|]. exists v. auto.
Qed.
Lemma sopt_comma : forall o r, sig_option o (44 :: r) = Some (o, 44 :: r). Proof. reflexivity. Qed.
Lemma sspelled_head : forall i t r, i <> SNothing -> sspelled i t -> at_end (t ++ r) = false.
Proof.
  intros i t r NE W.
  assert (V : forall w x v, valued (x :: w) v t -> 97 <= x <= 122 -> at_end (t ++ r) = false).
  { intros w x v (_ & k & W' & ->) H. rewrite <- app_assoc. now apply (word_head w x). }
  destruct i as [|v|v|v|]; try contradiction; cbn [sspelled] in W.
  - eapply word_head; [exact W|vm_compute; split; discriminate].
  - eapply V; [exact W|vm_compute; split; discriminate].
  - eapply V; [exact W|vm_compute; split; discriminate].
  - eapply V; [exact W|vm_compute; split; discriminate].
Qed.
Definition sreads (line : list Z) (its : list sitem) (tail : list Z) : Prop :=
  exists ts, Forall2 sspelled its ts /\ ts <> [] /\ line = join 44 ts ++ tail /\ blank_or_end tail /\
    ((2 <= length ts)%nat -> tail = [] -> last ts [] <> []).
Lemma sig_fuel : forall fuel o s, (length s < fuel)%nat -> sig_loop fuel o s <> None.
Proof.
  induction fuel as [|fuel IH]; intros o s H; [lia|]. cbn [SigModel.sig_loop]. destruct (at_end s); [discriminate|].
  destruct (sig_option o s) as [[o1 s1]|] eqn:E; [|discriminate]. destruct (at_end s1); [discriminate|]. destruct s1 as [|c s1]; [discriminate|].
  destruct (negb (c =? 44)); [discriminate|]. destruct (is_nil s1); [discriminate|]. apply IH.
  apply sopt_forward in E as [(i & t & _ & -> & _)|[_ <-]]; [rewrite app_length in H|]; cbn in H; lia.
Qed.
Lemma sloop_forward : forall fuel o s o', sig_loop fuel o s = Some (Some o') -> exists its tail, sreads s its tail /\ seffects its o o'.
Proof.
  induction fuel as [|fuel IH]; intros o s o' H; [discriminate|]. cbn [SigModel.sig_loop] in H. destruct (at_end s) eqn:Ea.
  { injection H as <-. exists [SNothing], s. split; [exists [[]]|exists o; cbn; auto]. repeat split; [repeat constructor|discriminate|now apply at_end_iff|cbn; intros; lia]. }
  destruct (sig_option o s) as [[o1 s1]|] eqn:E; [|discriminate].
  assert (Q : exists i t, s = t ++ s1 /\ sspelled i t /\ seffect i o o1).
  { apply sopt_forward in E as [(i & t & _ & -> & W & F)|[-> ->]]; [exists i, t; auto|exists SNothing, []; cbn; auto]. }
  destruct Q as (i & t & -> & W & F). clear E Ea. destruct (at_end s1) eqn:Ea.
  { injection H as <-. exists [i], s1. split; [exists [t]|exists o1; cbn; auto]. repeat split; [repeat constructor; assumption|discriminate|now apply at_end_iff|cbn; intros; lia]. }
  destruct s1 as [|c s1]; [discriminate|]. destruct (negb (c =? 44)) eqn:Ec; [discriminate|]. assert (c = 44) by lia. subst c.
  destruct (is_nil s1) eqn:En; [discriminate|]. destruct (IH _ _ _ H) as (its & tail & (ts & R1 & R2 & R3 & R4 & R5) & R6).
  exists (i :: its), tail. split; [|exists o1; auto]. exists (t :: ts). repeat split; [now constructor|discriminate| |assumption|].
  - rewrite join_cons by assumption. rewrite <- app_assoc. cbn [app]. now rewrite R3.
  - intros _ ->. rewrite last_cons by assumption. destruct ts as [|x [|y ts]]; [contradiction| |apply R5; [cbn; lia|reflexivity]].
    cbn in R3 |- *. rewrite app_nil_r in R3. subst s1. now destruct x.
Qed.
Lemma sloop_backward : forall its ts, Forall2 sspelled its ts -> forall o o' tail fuel, ts <> [] -> blank_or_end tail ->
  ((2 <= length ts)%nat -> tail = [] -> last ts [] <> []) -> seffects its o o' -> (length (join 44 ts ++ tail) < fuel)%nat ->
  sig_loop fuel o (join 44 ts ++ tail) = Some (Some o').
Proof.
  induction 1 as [|i t its ts W F IH]; intros o o' tail fuel NE B C E L; [contradiction|]. destruct fuel as [|fuel]; [lia|]. cbn [SigModel.sig_loop].
  destruct E as (o1 & E1 & E2). destruct ts as [|t2 ts].
  - inversion F; subst. cbn in E2. subst o1. cbn [join]. apply at_end_iff in B.
    assert (D : i = SNothing \/ i <> SNothing) by (destruct i; auto; right; discriminate). destruct D as [-> |D].
    + cbn in W, E1. subst. cbn [app]. now rewrite B.
    + rewrite (sspelled_head i t tail D W). rewrite (sopt_backward i t tail o o' D W E1). now rewrite B.
  - assert (NE2 : t2 :: ts <> []) by discriminate. rewrite join_cons in * by assumption. rewrite <- app_assoc in *. cbn [app] in *.
    set (s1 := join 44 (t2 :: ts) ++ tail) in *.
    assert (N : is_nil s1 = false).
    { unfold s1. destruct ts as [|t3 ts].
      - cbn [join]. destruct t2 as [|]; [|reflexivity]. destruct tail; [|reflexivity]. exfalso. apply C; [cbn; lia|reflexivity|reflexivity].
      - rewrite join_cons by discriminate. destruct t2; reflexivity. }
    assert (G : sig_option o (t ++ 44 :: s1) = Some (o1, 44 :: s1) /\ at_end (t ++ 44 :: s1) = false).
    { assert (D : i = SNothing \/ i <> SNothing) by (destruct i; auto; right; discriminate). destruct D as [-> |D].
      - cbn in W, E1. subst. cbn [app]. split; [apply sopt_comma|reflexivity].
      - split; [now apply (sopt_backward i)|now apply (sspelled_head i)]. }
    destruct G as [G1 G2]. rewrite G2, G1. change (at_end (44 :: s1)) with false. cbv iota. change (44 =? 44) with true. cbn [negb]. rewrite N.
    apply IH; [assumption|assumption| |assumption|].
    + intros Hl Ht. specialize (C ltac:(clear -Hl; cbn [length] in Hl |- *; lia) Ht). now rewrite last_cons in C.
    + fold s1. rewrite app_length in L. cbn [length] in L. clear - L. lia.
Qed.
Lemma sparse_iff : forall line o, sshsigopt_parse ptime (Some line) = Some o <-> exists its tail, sreads line its tail /\ smeans ptime its o.
Proof.
  intros line o. assert (U : sshsigopt_parse ptime (Some line) = match sig_loop (S (length line)) so_new line with
         | Some (Some o) => if negb (so_after o =? 0) && negb (so_before o =? 0) && (so_before o <=? so_after o) then None else Some o
         | _ => None end) by (destruct line; reflexivity).
  rewrite U. clear U. unfold smeans. split.
  - destruct (sig_loop (S (length line)) so_new line) as [[o1|]|] eqn:E; try discriminate.
    destruct (negb (so_after o1 =? 0) && negb (so_before o1 =? 0) && (so_before o1 <=? so_after o1)) eqn:B; [discriminate|]. intros H. injection H as <-.
    apply sloop_forward in E as (its & tail & R & E). exists its, tail. splits; auto. intros. lia.
  - intros (its & tail & (ts & R1 & R2 & -> & R4 & R5) & R6 & R7). rewrite (sloop_backward its ts R1 so_new o tail); auto.
    replace (negb (so_after o =? 0) && negb (so_before o =? 0) && (so_before o <=? so_after o)) with false; [reflexivity|].
    destruct (so_after o =? 0) eqn:A1; [reflexivity|]. destruct (so_before o =? 0) eqn:A2; [reflexivity|]. cbn [negb andb]. specialize (R7 ltac:(lia) ltac:(lia)). lia.
Qed.
End Opt.

(** ** Where the options end *)
Lemma advance_cut : forall n s q rest, (length s <= n)%nat -> advance q s = Some rest -> exists p, s = p ++ rest /\ advance q p = Some [] /\ blank_or_end rest.
Proof.
  induction n as [|n IH]; intros s q rest L H.
  { destruct s; [|cbn in L; lia]. cbn in H. destruct q; [discriminate|]. injection H as <-. exists []. splits; auto. now left. }
  destruct s as [|c r]. { cbn in H. destruct q; [discriminate|]. injection H as <-. exists []. splits; auto. now left. }
  cbn [advance] in H. destruct (negb q && ((c =? 32) || (c =? 9))) eqn:B.
  { injection H as <-. exists []. destruct q; [discriminate|]. splits; auto. right. exists c, r. split; [reflexivity|]. cbn [negb andb] in B. lia. }
  destruct r as [|d r'].
  { destruct (xorb q (c =? 34)) eqn:X; [discriminate|]. injection H as <-. exists [c]. splits; [now rewrite app_nil_r| |now left]. cbn [advance]. rewrite B, X. reflexivity. }
  destruct ((c =? 92) && (d =? 34)) eqn:E.
  - apply IH in H; [|cbn in L; lia]. destruct H as (p & -> & P & R). exists (c :: d :: p). splits; [reflexivity| |assumption]. cbn [advance]. rewrite B, E. exact P.
  - apply IH in H; [|cbn in L |- *; lia]. destruct H as (p & Ep & P & R). exists (c :: p). splits; [cbn [app]; now rewrite Ep| |assumption]. cbn [advance]. rewrite B.
    destruct p as [|d' p]; [|cbn [app] in Ep; injection Ep as <- ->; rewrite E; exact P].
    cbn [advance] in P. destruct (c =? 34), q; cbn in *; congruence.
Qed.
Lemma advance_sspelled : forall i t r, sspelled i t -> advance false (t ++ r) = advance false r.
Proof.
  intros i t r W.
  assert (K : forall w, forallb (fun c => ((97 <=? c) && (c <=? 122)) || (c =? 45) || ((48 <=? c) && (c <=? 57))) w = true -> Forall (fun c => 97 <= c <= 122 \/ c = 45 \/ 48 <= c <= 57) w).
  { intros w H. apply Forall_forall. intros x Hx. rewrite forallb_forall in H. specialize (H x Hx). lia. }
  assert (V : forall w v, valued w v t -> Forall (fun c => 97 <= c <= 122 \/ c = 45 \/ 48 <= c <= 57) w -> advance false (t ++ r) = advance false r).
  { intros w v (L & k & W' & ->) H. rewrite <- app_assoc, advance_plains by now apply (word_plain w). cbn [app]. rewrite advance_plain by (unfold plain; lia). unfold quoted. cbn [app].
    rewrite <- app_assoc. cbn [app]. cbn [advance negb andb]. change (advance false (34 :: escape v ++ 34 :: r) = advance false r).
    rewrite <- (advance_quoted v r L). cbn [advance negb andb]. change ((34 =? 32) || (34 =? 9)) with false. cbv iota.
    destruct (escape v ++ 34 :: r) as [|d s'] eqn:Es; [destruct (escape v); discriminate|]. reflexivity. }
  assert (C : forall w, word w t -> Forall (fun c => 97 <= c <= 122 \/ c = 45 \/ 48 <= c <= 57) w -> advance false (t ++ r) = advance false r).
  { intros w W' H. apply advance_plains. now apply (word_plain w). }
  destruct i as [|v|v|v|]; cbn [sspelled] in W; try (eapply V; [exact W|apply K; reflexivity]); try (eapply C; [exact W|apply K; reflexivity]).
  subst t. reflexivity.
Qed.
Lemma advance_join : forall its ts r, Forall2 sspelled its ts -> ts <> [] -> advance false (join 44 ts ++ r) = advance false r.
Proof.
  intros its ts r F. induction F as [|i t its ts W F IH]; intros NE; [contradiction|]. destruct ts as [|t2 ts].
  - cbn [join]. now apply (advance_sspelled i).
  - rewrite join_cons by discriminate. rewrite <- app_assoc, (advance_sspelled i) by assumption. cbn [app]. rewrite advance_plain by (unfold plain; lia). now apply IH.
Qed.

(** ** Lines *)
Lemma is_ws_iff : forall c, is_ws c = true <-> white_c c.
Proof. intros c. unfold is_ws, white_c. lia. Qed.
Lemma drop_ws_spec : forall l, exists b, l = b ++ drop_ws l /\ Forall white_c b /\ starts_black (drop_ws l).
Proof.
  induction l as [|c l (b & E & F & H)]; cbn [drop_ws]; [exists []; splits; auto; exact I|]. destruct (is_ws c) eqn:W.
  - exists (c :: b). splits; [cbn [app]; now rewrite <- E|constructor; [now apply is_ws_iff|assumption]|assumption].
  - exists []. splits; auto. cbn. rewrite <- is_ws_iff. congruence.
Qed.
Lemma drop_ws_ok : forall b l, Forall white_c b -> starts_black l -> drop_ws (b ++ l) = l.
Proof.
  intros b l F H. induction F as [|c b Hc F IH]; cbn [app drop_ws].
  - destruct l as [|c l]; [reflexivity|]. cbn [drop_ws]. cbn in H. rewrite <- is_ws_iff in H. destruct (is_ws c); [congruence|reflexivity].
  - apply is_ws_iff in Hc. now rewrite Hc.
Qed.
Lemma span_spec : forall p l a b, span p l = (a, b) -> l = a ++ b /\ Forall (fun c => p c = true) a /\ match b with [] => True | c :: _ => p c = false end.
Proof.
  intros p. induction l as [|c l IH]; intros a b H; cbn [span] in H; [injection H as <- <-; splits; auto|].
  destruct (p c) eqn:E; [|injection H as <- <-; splits; auto]. destruct (span p l) as [a' b'] eqn:E'. injection H as <- <-.
  destruct (IH _ _ eq_refl) as (-> & F & B). splits; auto.
Qed.
Lemma span_ok : forall p a c r, Forall (fun c => p c = true) a -> p c = false -> span p (a ++ c :: r) = (a, c :: r).
Proof. intros p a c r F H. induction F as [|x a Hx F IH]; cbn [app span]; [now rewrite H|]. now rewrite Hx, IH. Qed.
Lemma strdelimw_iff : forall s t r, strdelimw s = Some (t, Some r) <-> first_word s t r.
Proof.
  assert (U : forall t, Forall (fun c => negb (is_ws c || (c =? 34)) = true) t <-> Forall (fun x => ~ white_c x /\ x <> 34) t).
  { intros t. rewrite !Forall_forall. split; intros H x Hx; specialize (H x Hx); rewrite <- is_ws_iff in *; destruct (is_ws x); lia. }
  intros s t r. unfold strdelimw. split.
  - destruct (span (fun c => negb (is_ws c || (c =? 34))) s) as [a b] eqn:E. apply span_spec in E as (-> & F & B). apply U in F. destruct b as [|c b]; [discriminate|].
    destruct (c =? 34) eqn:Ec.
    + assert (c = 34) by lia. subst c. destruct (span (fun c => negb (c =? 34)) b) as [q b'] eqn:E'. apply span_spec in E' as (-> & F' & B'). destruct b' as [|c b']; [discriminate|]. intros H. injection H as <- <-.
      assert (c = 34) by (destruct (c =? 34) eqn:X; [lia|discriminate]). subst c. destruct (drop_ws_spec b') as (w & Ew & Fw & Hw). rewrite Ew at 1. apply fw_quoted; auto.
      intros H. rewrite Forall_forall in F'. specialize (F' 34 H). discriminate.
    + intros H. injection H as <- <-. destruct (drop_ws_spec b) as (w & Ew & Fw & Hw). rewrite Ew at 1. apply fw_bare; auto. apply is_ws_iff. destruct (is_ws c); [reflexivity|discriminate B].
  - intros H. inversion H as [t' c b r' F Wc Fb Hr E1 E2 E3|t' q b r' F Nq Fb Hr E1 E2 E3]; subst.
    + apply U in F. apply is_ws_iff in Wc. rewrite span_ok; [|assumption|now rewrite Wc]. replace (c =? 34) with false by (unfold is_ws in Wc; lia). now rewrite drop_ws_ok.
    + apply U in F. rewrite span_ok; [|assumption|reflexivity]. change (34 =? 34) with true. cbv iota. rewrite span_ok; [|apply Forall_forall; intros x Hx; destruct (x =? 34) eqn:X; [exfalso; apply Nq; assert (x = 34) by lia; now subst|reflexivity]|reflexivity].
      now rewrite drop_ws_ok.
Qed.
Lemma on_list_iff : forall n l, match match_pattern_list n l false with Some v => v =? 1 | None => false end = true <-> on_list l n.
Proof.
  intros n l. unfold on_list. destruct (C11_total n l false) as (v & E & _). rewrite E.
  assert (D : Forall fits (entries l) \/ exists pre e post, entries l = pre ++ e :: post /\ Forall fits pre /\ ~ fits e).
  { clear. induction (entries l) as [|e es IH]; [left; constructor|]. destruct (le_lt_dec 1023 (length (body e))) as [H|H].
    - right. exists [], e, es. splits; auto. unfold fits. lia.
    - destruct IH as [IH|(pre & x & post & -> & Hp & Hx)]; [left; now constructor|]. right. exists (e :: pre), x, post. splits; auto. }
  destruct D as [D|(pre & e & post & D & Hp & He)].
  - destruct (C11_list n l false D) as (_ & B & _). rewrite E in B. split.
    + intros H. assert (v = 1) by lia. subst v. destruct (proj1 B eq_refl) as (B1 & B2). auto.
    + intros (_ & H1 & H2). assert (Some v = Some 1) as X by (apply B; auto). injection X as ->. reflexivity.
  - destruct (C11_long n l false pre e post D Hp He) as (_ & X). rewrite E in X. split.
    + intros H. assert (v = 1) by lia. congruence.
    + intros (H & _). rewrite D in H. apply Forall_app in H as (_ & H). inversion H; contradiction.
Qed.

(** ** Whether a key is allowed *)
Lemma key_equal_iff : forall a b, key_equal a b = true <-> same_key a b.
Proof.
  intros [[pa ca] ba] [[pb cb] bb]. unfold key_equal, same_key, is_cert. cbn [pk_key k_cert k_pub pk_blob]. destruct ca as [ca|], cb as [cb|]; cbn [andb negb].
  - rewrite andb_true_iff, !beqb_eq. split; [intros (H1 & H2); splits; auto; split; discriminate|intros (H1 & _ & H2); split; [apply H2; discriminate|assumption]].
  - split; [discriminate|]. intros (_ & H & _). destruct H as (_ & H). specialize (H eq_refl). discriminate.
  - split; [discriminate|]. intros (_ & H & _). destruct H as (H & _). specialize (H eq_refl). discriminate.
  - rewrite beqb_eq. split; [intros H; splits; auto; [tauto|intros X; now destruct X]|intros (H & _); assumption].
Qed.
Section Lines.
Variable ptime : list Z -> option Z.
Variable rd : list Z -> option pkey.
Lemma key_part_iff : forall cp k o,
  (match (match rd cp with
          | Some k => Some (k, None)
          | None => match sshkey_advance_past_options cp with
                    | None => None
                    | Some [] => None
                    | Some (c :: r) => match rd (skip_blanks r) with Some k => Some (k, Some (ztake (zlen cp - zlen (c :: r)) cp)) | None => None end
                    end
          end) with
   | None => None
   | Some (k, opts) => match sshsigopt_parse ptime opts with None => None | Some o => Some (k, o) end
   end = Some (k, o)) <-> key_part ptime rd cp k o.
Proof.
  intros cp k o. unfold key_part. destruct (rd cp) as [k1|] eqn:R.
  { cbn [sshsigopt_parse]. split; [intros H; injection H as <- <-; left; auto|]. intros [(H & ->)|(H & _)]; [injection H as ->; reflexivity|discriminate]. }
  split.
  - destruct (sshkey_advance_past_options cp) as [[|c r]|] eqn:A; try discriminate. destruct (rd (skip_blanks r)) as [k1|] eqn:R1; [|discriminate].
    destruct (sshsigopt_parse ptime (Some (ztake (zlen cp - zlen (c :: r)) cp))) as [o1|] eqn:P; [|discriminate]. intros H. injection H as <- <-. right. split; [reflexivity|].
    apply (advance_cut (length cp)) in A; [|lia]. destruct A as (p & -> & Ap & B). replace (zlen (p ++ c :: r) - zlen (c :: r)) with (zlen p) in P by (rewrite zlen_app; lia).
    rewrite ztake_app_exact in P by reflexivity. apply sparse_iff in P as (its & tail & (ts & T1 & T2 & T3 & T4 & T5) & M).
    assert (T : tail = []).
    { rewrite T3 in Ap. rewrite (advance_join its ts tail T1 T2) in Ap. rewrite advance_end in Ap by assumption. congruence. }
    subst tail. rewrite app_nil_r in T3. exists p, c, r, its. splits; auto.
    + destruct B as [B|(c' & r' & B & H)]; [discriminate|]. injection B as <- <-. exact H.
    + exists ts. splits; auto.
  - intros [(H & _)|(_ & opts & c & r & its & -> & Hc & (ts & T1 & T2 & T3 & T4) & M & Rk)]; [discriminate|].
    assert (A : sshkey_advance_past_options (opts ++ c :: r) = Some (c :: r)).
    { unfold sshkey_advance_past_options. rewrite T3, (advance_join its ts _ T1 T2). apply advance_end. right. exists c, r. auto. }
    rewrite A, Rk. replace (zlen (opts ++ c :: r) - zlen (c :: r)) with (zlen opts) by (rewrite zlen_app; lia). rewrite ztake_app_exact by reflexivity.
    rewrite (proj2 (sparse_iff ptime opts o)); [reflexivity|]. exists its, []. split; [|assumption]. exists ts. splits; auto; [now rewrite app_nil_r|now left].
Qed.
Lemma parse_line_iff : forall line req e, parse_line ptime rd line req = LEntry e <->
  says_line ptime rd line e /\ forall p, req = Some p -> on_list (e_who e) p.
Proof.
  intros line req e. unfold parse_line, says_line. cbv zeta. set (cp := drop_ws (cstr line)).
  destruct (drop_ws_spec (cstr line)) as (b & Eb & Fb & Hb). fold cp in Eb, Hb.
  assert (Req : forall who, (match req with Some p => negb (match match_pattern_list p who false with Some v => v =? 1 | None => false end) | None => false end) = false <-> forall p, req = Some p -> on_list who p).
  { intros who. destruct req as [p|]; [|split; [discriminate|reflexivity]]. split.
    - intros H q Hq. injection Hq as <-. apply on_list_iff. now destruct (match match_pattern_list p who false with Some v => v =? 1 | None => false end).
    - intros H. specialize (H p eq_refl). apply on_list_iff in H. now rewrite H. }
  split.
  - destruct (is_nil cp || (hd 0 cp =? 35)) eqn:E0; [discriminate|]. destruct (strdelimw cp) as [[who [s|]]|] eqn:Es; try discriminate.
    destruct (match req with Some p => _ | None => false end) eqn:Er; [discriminate|].
    intros H. assert (K : exists k o, key_part ptime rd s k o /\ e = mkE who k o).
    { match type of H with match ?x with _ => _ end = _ => destruct x as [[k opts]|] eqn:X; [|discriminate] end.
      destruct (sshsigopt_parse ptime opts) as [o|] eqn:P; [|discriminate]. injection H as <-. exists k, o. split; [|reflexivity]. apply key_part_iff. rewrite X, P. reflexivity. }
    destruct K as (k & o & K & ->). cbn [e_who e_key e_opt]. split; [|now apply Req].
    exists b, cp, s. splits; auto; [|now apply strdelimw_iff]. destruct cp as [|c r]; [discriminate|]. exists c, r. splits; [reflexivity|exact Hb|]. cbn in E0. lia.
  - intros ((b' & l & s & El & Fb' & (c & r & -> & Hc & H35) & W & K) & Hreq).
    assert (cp = c :: r) as ->. { unfold cp. rewrite El. apply drop_ws_ok; [assumption|exact Hc]. }
    cbn [is_nil hd orb]. replace (c =? 35) with false by lia. apply strdelimw_iff in W. rewrite W.
    rewrite (proj2 (Req (e_who e)) Hreq). apply key_part_iff in K.
    match type of K with match ?x with _ => _ end = _ => destruct x as [[k opts]|]; [|discriminate] end.
    destruct (sshsigopt_parse ptime opts) as [o|]; [|discriminate]. injection K as -> ->. now destruct e.
Qed.

Lemma check_line_iff : forall line k who ns t, (exists w, check_line ptime rd line k (Some who) (Some ns) t = Some w) <->
  exists e, says_line ptime rd line e /\ allows e k who ns t.
Proof.
  intros line k who ns t. unfold check_line, allows. split.
  - intros (w & H). destruct (parse_line ptime rd line (Some who)) as [| |e] eqn:E; try discriminate. apply parse_line_iff in E as (Sy & On). exists e. split; [assumption|]. specialize (On who eq_refl).
    match type of H with match ?x with _ => _ end = _ => destruct x as [w'|] eqn:X; [|discriminate] end.
    destruct (match so_ns (e_opt e) with Some l => negb (match match_pattern_list ns l false with Some v => v =? 1 | None => false end) | None => false end) eqn:N; [discriminate|].
    destruct (negb (so_after (e_opt e) =? 0) && (t <? so_after (e_opt e))) eqn:A; [discriminate|]. destruct (negb (so_before (e_opt e) =? 0) && (so_before (e_opt e) <? t)) eqn:B; [discriminate|].
    split; [assumption|]. split; [|splits; try lia].
    + destruct (so_ca (e_opt e)) eqn:Ca; cbn [negb andb] in X.
      * right. split; [reflexivity|]. unfold is_cert in X. destruct (k_cert (pk_key k)) as [c|] eqn:Ec; [|discriminate]. cbn [andb] in X. destruct (beqb (c_ca c) (k_pub (pk_key (e_key e)))) eqn:Eq; [|discriminate].
        apply beqb_eq in Eq. exists c. splits; auto. destruct (check_authority (pk_key k) false true false t (Some who)) eqn:Q; [|discriminate]. apply (authority_iff (pk_key k) ForUser true false t (Some who)) in Q as (c' & Hc' & Q). rewrite Ec in Hc'. now injection Hc' as <-.
      * left. split; [reflexivity|]. destruct (key_equal (e_key e) k) eqn:Q; [now apply key_equal_iff|discriminate].
    + intros l Hl. rewrite Hl in N. apply on_list_iff. now destruct (match match_pattern_list ns l false with Some v => v =? 1 | None => false end).
  - intros (e & Sy & On & Key & N & A & B). exists (e_who e). rewrite (proj2 (parse_line_iff line (Some who) e)); [|split; [assumption|intros p Hp; now injection Hp as <-]].
    replace (if negb (so_ca (e_opt e)) && key_equal (e_key e) k then Some (e_who e) else _) with (Some (e_who e)).
    + replace (match so_ns (e_opt e) with Some l => negb (match match_pattern_list ns l false with Some v => v =? 1 | None => false end) | None => false end) with false.
      * replace (negb (so_after (e_opt e) =? 0) && (t <? so_after (e_opt e))) with false by (destruct (so_after (e_opt e) =? 0) eqn:X; [reflexivity|]; specialize (A ltac:(lia)); cbn [negb andb]; lia).
        now replace (negb (so_before (e_opt e) =? 0) && (so_before (e_opt e) <? t)) with false by (destruct (so_before (e_opt e) =? 0) eqn:X; [reflexivity|]; specialize (B ltac:(lia)); cbn [negb andb]; lia).
      * destruct (so_ns (e_opt e)) as [l|]; [|reflexivity]. specialize (N l eq_refl). apply on_list_iff in N. now rewrite N.
    + destruct Key as [(Ca & Q)|(Ca & c & Ec & Eq & Q)].
      * apply key_equal_iff in Q. now rewrite Ca, Q.
      * unfold is_cert. rewrite Ca, Ec, Eq, beqb_refl. cbn [negb andb]. now rewrite (proj2 (authority_iff (pk_key k) ForUser true false t (Some who)) (ex_intro _ c (conj Ec Q))).
Qed.
Lemma check_lines_iff : forall lines k who ns t, (exists w, check_lines ptime rd lines k (Some who) (Some ns) t = Some w) <->
  exists line e, In line lines /\ says_line ptime rd line e /\ allows e k who ns t.
Proof.
  intros lines k who ns t. induction lines as [|l lines IH]; cbn [check_lines].
  - split; [intros (w & H); discriminate|intros (line & e & [] & _)].
  - pose proof (check_line_iff l k who ns t) as L. destruct (check_line ptime rd l k (Some who) (Some ns) t) as [w|].
    + split; [|intros _; eauto]. intros _. destruct (proj1 L) as (e & H1 & H2); [eauto|]. exists l, e. splits; auto. now left.
    + rewrite IH. split.
      * intros (line & e & H & R). exists line, e. split; [now right|assumption].
      * intros (line & e & [<-|H] & H1 & H2); [|exists line, e; auto]. destruct (proj2 L) as (w & H); [eauto|discriminate].
Qed.
End Lines.
