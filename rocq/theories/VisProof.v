From Coq Require Import String.
From Verif Require Import Base Bits VisModel VisSpec.
Local Open Scope Z_scope.

Lemma range_ind : forall (P : Z -> bool) (n : nat), forallb P (map Z.of_nat (seq 0 n)) = true -> forall c, 0 <= c < Z.of_nat n -> P c = true.
Proof.
  intros P n H c Hc. rewrite forallb_forall in H. apply H. apply in_map_iff. exists (Z.to_nat c). split; [lia|]. apply in_seq. lia.
Qed.

Lemma reads_fun : forall t m m', reads t m -> reads t m' -> m = m'.
Proof.
  intros t m m' H. revert m'. induction H as [|c t m P N R IH|t m R IH|l c t m L R IH|a b d t m Ha Hb Hd R IH]; intros m' H'.
  - now inversion H'.
  - inversion H'; subst; try lia. f_equal; auto.
  - inversion H' as [|? ? ? ? ? ? E1|? ? ? E1|? ? ? ? L E1|? ? ? ? ? ? ? ? ? E1]; subst; try lia; [f_equal; auto|inversion L].
  - inversion H' as [|? ? ? ? ? ? E1|? ? ? E1|? ? ? ? L' E1|? ? ? ? ? ? ? ? ? E1]; subst; try lia.
    + inversion L.
    + f_equal; [|auto]. inversion L; subst; inversion L'; reflexivity.
    + exfalso. inversion L; lia.
  - inversion H' as [|? ? ? ? ? ? E1|? ? ? E1|? ? ? ? L' E1|a' b' d' ? ? ? ? ? E1]; subst; try lia.
    + exfalso. inversion L'; lia.
    + f_equal. auto.
Qed.
Lemma reads_app : forall t1 m1 t2 m2, reads t1 m1 -> reads t2 m2 -> reads (t1 ++ t2) (m1 ++ m2).
Proof. intros t1 m1 t2 m2 H1 H2. induction H1; cbn [app]; [assumption|constructor..]; assumption. Qed.

Section P.
Variable isgraph iscntrl : Z -> bool.
Hypothesis Cls : ascii_classes isgraph iscntrl.
Notation vis := (vis isgraph iscntrl).
Notation isvisible := (isvisible isgraph).
Notation loop := (strnvis_loop isgraph iscntrl).

Lemma vis_pos : forall c flag, 1 <= zlen (vis c flag).
Proof.
  intros c flag. unfold VisModel.vis. destruct (VisModel.isvisible isgraph c flag).
  - destruct (slashed c flag); unfold zlen; cbn [length]; lia.
  - destruct (if has flag VIS_CSTYLE then cstyle c else None); [unfold zlen; cbn [length]; lia|].
    unfold vis_rest. destruct (_ || _); [unfold octal, zlen; cbn [length]; lia|].
    rewrite !zlen_app. pose proof (zlen_nonneg _ (if has flag VIS_NOSLASH then [] else [92])).
    pose proof (zlen_nonneg _ (if negb (Z.land c 128 =? 0) then [77] else [])). cbv zeta.
    destruct (iscntrl _); rewrite zlen_cons; match goal with |- context [zlen ?x + 1] => pose proof (zlen_nonneg _ x) end; lia.
Qed.
Lemma vis_max : forall c flag, zlen (vis c flag) <= 4.
Proof.
  intros c flag. unfold VisModel.vis. destruct (VisModel.isvisible isgraph c flag).
  - destruct (slashed c flag); unfold zlen; cbn [length]; lia.
  - destruct (if has flag VIS_CSTYLE then cstyle c else None); [unfold zlen; cbn [length]; lia|].
    unfold vis_rest. destruct (_ || _); [unfold octal, zlen; cbn [length]; lia|].
    rewrite !zlen_app. cbv zeta.
    destruct (has flag VIS_NOSLASH); destruct (negb (Z.land c 128 =? 0)); destruct (iscntrl _); try destruct (_ =? 127); unfold zlen; cbn [length]; lia.
Qed.

(** Everything the loop does. *)
Lemma loop_ok : forall e flag src dst i dst' i' rest,
  loop e flag src dst i = (dst', i', rest) ->
  exists m1, src = m1 ++ rest /\ dst' = dst ++ concat (map (fun c => vis c flag) m1) /\
    (m1 <> [] -> zlen dst' <= e) /\
    (forall c r, rest = c :: r -> e < zlen dst' + zlen (vis c flag)) /\
    ((zlen dst < e \/ 1 <= i \/ e < 0) -> 0 <= i -> rest <> [] -> e < zlen dst' + i').
Proof.
  intros e flag. induction src as [|c r IH]; intros dst i dst' i' rest E; cbn [strnvis_loop] in E.
  - injection E as <- <- <-. exists []. cbn [app map concat]. rewrite app_nil_r.
    split; [reflexivity|]. split; [reflexivity|]. split; [congruence|]. split; [discriminate|]. intros _ _ N. now elim N.
  - pose proof (vis_pos c flag) as VP. pose proof (zlen_nonneg _ dst) as DP. destruct (zlen dst <? e) eqn:Le.
    + assert (Step : forall t i0, t = vis c flag -> zlen dst + zlen t <= e -> 1 <= i0 -> loop e flag r (dst ++ t) i0 = (dst', i', rest) ->
        exists m1, c :: r = m1 ++ rest /\ dst' = dst ++ concat (map (fun c => vis c flag) m1) /\
          (m1 <> [] -> zlen dst' <= e) /\
          (forall c r, rest = c :: r -> e < zlen dst' + zlen (vis c flag)) /\
          ((zlen dst < e \/ 1 <= i \/ e < 0) -> 0 <= i -> rest <> [] -> e < zlen dst' + i')).
      { intros t i0 -> Fit Hi0 E'. destruct (IH _ _ _ _ _ E') as (m1 & -> & -> & Q1 & Q2 & Q3). exists (c :: m1).
        cbn [map concat app]. rewrite <- app_assoc in *. split; [reflexivity|]. split; [reflexivity|].
        split; [|split; [exact Q2|]].
        - intros _. destruct m1; [|apply Q1; discriminate]. cbn [map concat]. rewrite app_nil_r, zlen_app. lia.
        - intros _ _. apply Q3; lia. }
      destruct (VisModel.isvisible isgraph c flag) eqn:Ev.
      * assert (Vv : vis c flag = if slashed c flag then [92; c] else [c]) by (unfold VisModel.vis; now rewrite Ev).
        destruct (slashed c flag) eqn:Es.
        -- destruct (zlen dst + 1 >=? e) eqn:G.
           ++ injection E as <- <- <-. exists []. cbn [map concat app]. rewrite app_nil_r.
              split; [reflexivity|]. split; [reflexivity|]. split; [congruence|].
              split; [|intros; lia]. intros c0 r0 Q. injection Q as <- <-. rewrite Vv. unfold zlen at 2. cbn [length]. lia.
           ++ apply (Step [92; c] 1); [now rewrite Vv|unfold zlen at 2; cbn [length]; lia|lia|exact E].
        -- apply (Step [c] 1); [now rewrite Vv|unfold zlen at 2; cbn [length]; lia|lia|exact E].
      * cbv zeta in E. destruct (zlen dst + zlen (vis c flag) <=? e) eqn:G.
        -- apply (Step (vis c flag) (zlen (vis c flag))); [reflexivity|lia|lia|exact E].
        -- injection E as <- <- <-. exists []. cbn [map concat app]. rewrite app_nil_r.
           split; [reflexivity|]. split; [reflexivity|]. split; [congruence|].
           split; [|intros; lia]. intros c0 r0 Q. injection Q as <- <-. lia.
    + injection E as <- <- <-. exists []. cbn [map concat app]. rewrite app_nil_r.
      split; [reflexivity|]. split; [reflexivity|]. split; [congruence|].
      split; [|intros; lia]. intros c0 r0 Q. injection Q as <- <-. lia.
Qed.

Lemma rest_size_sum : forall flag src, rest_size isgraph iscntrl flag src = zlen (concat (map (fun c => vis c flag) src)).
Proof. intros flag. induction src as [|c r IH]; cbn [rest_size map concat]; [reflexivity|]. rewrite zlen_app. lia. Qed.

(** strnvis writes the encoding of the longest beginning that fits. *)
Lemma strnvis_ok : forall src siz flag, 0 <= siz ->
  exists m1 m2, src = m1 ++ m2 /\
    fst (strnvis isgraph iscntrl src siz flag) = (if siz >? 0 then Some (concat (map (fun c => vis c flag) m1)) else None) /\
    (0 < siz -> zlen (concat (map (fun c => vis c flag) m1)) < siz) /\ (siz = 0 -> m1 = []) /\
    (forall c r, m2 = c :: r -> siz <= zlen (concat (map (fun c => vis c flag) (m1 ++ [c])))) /\
    (siz <> 1 -> snd (strnvis isgraph iscntrl src siz flag) = zlen (concat (map (fun c => vis c flag) src))).
Proof.
  intros src siz flag Hs. unfold strnvis. destruct (loop (siz - 1) flag src [] 0) as [[dst i] rest] eqn:E.
  destruct (loop_ok _ _ _ _ _ _ _ _ E) as (m1 & Es & Ed & Q1 & Q2 & Q3). cbn [app] in Ed. exists m1, rest. cbn [fst snd].
  split; [exact Es|]. split; [now rewrite Ed|]. rewrite <- Ed.
  assert (L0 : m1 = [] -> zlen dst = 0) by (intros ->; rewrite Ed; reflexivity).
  split.
  { intros P. destruct m1 as [|c m1]; [rewrite L0 by reflexivity; lia|]. specialize (Q1 ltac:(discriminate)). lia. }
  split.
  { intros ->. destruct m1 as [|c m1]; [reflexivity|]. exfalso. specialize (Q1 ltac:(discriminate)). pose proof (zlen_nonneg _ dst). lia. }
  split.
  { intros c r Er. specialize (Q2 c r Er). rewrite map_app, concat_app, <- Ed, zlen_app. cbn [map concat]. rewrite app_nil_r. lia. }
  intros N1. rewrite Es, map_app, concat_app, <- Ed, zlen_app, <- rest_size_sum.
  destruct rest as [|c r]; [cbn [rest_size]; destruct (_ >? _); lia|].
  rewrite (proj2 (Z.gtb_lt _ _)); [reflexivity|]. apply Q3; [|lia|discriminate]. change (zlen (@nil Z)) with 0. lia.
Qed.

(** ** Syslog lines *)
Lemma digit3 : forall c, 1 <= c <= 255 ->
  0 <= Z.land (Z.shiftr c 6) 7 <= 3 /\ 0 <= Z.land (Z.shiftr c 3) 7 <= 7 /\ 0 <= Z.land c 7 <= 7 /\
  64 * Z.land (Z.shiftr c 6) 7 + 8 * Z.land (Z.shiftr c 3) 7 + Z.land c 7 = c.
Proof.
  intros c Hc.
  pose (P := fun c => (Z.land (Z.shiftr c 6) 7 <=? 3) && (0 <=? Z.land (Z.shiftr c 6) 7) && (0 <=? Z.land (Z.shiftr c 3) 7) && (Z.land (Z.shiftr c 3) 7 <=? 7)
    && (0 <=? Z.land c 7) && (Z.land c 7 <=? 7) && (64 * Z.land (Z.shiftr c 6) 7 + 8 * Z.land (Z.shiftr c 3) 7 + Z.land c 7 =? c)).
  assert (H : P c = true) by (apply (range_ind P 256); [reflexivity|lia]). unfold P in H. lia.
Qed.
Lemma octal_reads : forall c t m, 1 <= c <= 255 -> reads t m -> reads (octal c ++ t) (c :: m).
Proof.
  intros c t m Hc R. destruct (digit3 c Hc) as (A & B & D & S). unfold octal. cbn [app].
  replace c with (64 * (Z.land (Z.shiftr c 6) 7 + 48 - 48) + 8 * (Z.land (Z.shiftr c 3) 7 + 48 - 48) + (Z.land c 7 + 48 - 48)) at 4 by lia.
  constructor; [lia..|assumption].
Qed.
Lemma octal_printable : forall c, 1 <= c <= 255 -> Forall printable (octal c).
Proof.
  intros c Hc. destruct (digit3 c Hc) as (A & B & D & _). unfold octal, printable. repeat constructor; lia.
Qed.
Lemma letter_of : forall c l, cstyle c = Some l -> c <> 32 -> letter l c.
Proof.
  intros c l E N. unfold cstyle in E.
  destruct (Z.eqb_spec c 10); [subst; injection E as <-; constructor|].
  destruct (Z.eqb_spec c 13); [subst; injection E as <-; constructor|].
  destruct (Z.eqb_spec c 8); [subst; injection E as <-; constructor|].
  destruct (Z.eqb_spec c 7); [subst; injection E as <-; constructor|].
  destruct (Z.eqb_spec c 11); [subst; injection E as <-; constructor|].
  destruct (Z.eqb_spec c 9); [subst; injection E as <-; constructor|].
  destruct (Z.eqb_spec c 12); [subst; injection E as <-; constructor|].
  destruct (Z.eqb_spec c 32); [contradiction|discriminate].
Qed.
Lemma syslog_visible : forall c, 1 <= c <= 255 -> isvisible c LOG_SYSLOG_VIS = true <-> printable c.
Proof.
  intros c Hc. unfold VisModel.isvisible, printable.
  change (has LOG_SYSLOG_VIS VIS_ALL) with false. change (has LOG_SYSLOG_VIS VIS_GLOB) with false.
  change (has LOG_SYSLOG_VIS VIS_SP) with false. change (has LOG_SYSLOG_VIS VIS_TAB) with true.
  change (has LOG_SYSLOG_VIS VIS_NL) with true. change (has LOG_SYSLOG_VIS VIS_SAFE) with false.
  cbn [negb andb orb]. rewrite !orb_true_r, !andb_true_r, !orb_false_r. cbn [andb].
  destruct (c <? 128) eqn:L; cbn [andb orb].
  - destruct (Cls c) as [[G1 G2] _]; [lia|]. destruct (isgraph c).
    + specialize (G1 eq_refl). cbn [orb]. split; [lia|reflexivity].
    + assert (~ 33 <= c <= 126) by (intros Q; specialize (G2 Q); discriminate). cbn [orb]. lia.
  - split; lia.
Qed.
Lemma syslog_vis : forall c, 1 <= c <= 255 ->
  Forall printable (vis c LOG_SYSLOG_VIS) /\ forall t m, reads t m -> reads (vis c LOG_SYSLOG_VIS ++ t) (c :: m).
Proof.
  intros c Hc. pose proof (syslog_visible c Hc) as V. unfold VisModel.vis.
  destruct (VisModel.isvisible isgraph c LOG_SYSLOG_VIS).
  - destruct V as [V _]. specialize (V eq_refl). unfold slashed.
    change (has LOG_SYSLOG_VIS VIS_DQ) with false. change (has LOG_SYSLOG_VIS VIS_NOSLASH) with false.
    rewrite andb_false_r. cbn [orb negb]. rewrite andb_true_r. destruct (c =? 92) eqn:Q.
    + apply Z.eqb_eq in Q. subst c. split; [repeat constructor; unfold printable; lia|]. intros. cbn [app]. now constructor.
    + split; [constructor; [assumption|constructor]|]. intros. cbn [app]. constructor; [assumption|lia|assumption].
  - assert (N : ~ printable c) by (intros Q; apply V in Q; discriminate).
    change (has LOG_SYSLOG_VIS VIS_CSTYLE) with true. cbv iota. destruct (cstyle c) as [l|] eqn:E.
    + apply letter_of in E; [|intros ->; apply N; unfold printable; lia].
      split; [|intros; cbn [app]; econstructor; eassumption]. unfold printable. repeat constructor; inversion E; lia.
    + unfold vis_rest. change (has LOG_SYSLOG_VIS VIS_OCTAL) with true. rewrite orb_true_r. cbn [orb].
      split; [now apply octal_printable|]. intros. now apply octal_reads.
Qed.
Lemma syslog_all : forall m, c_string m ->
  Forall printable (concat (map (fun c => vis c LOG_SYSLOG_VIS) m)) /\ reads (concat (map (fun c => vis c LOG_SYSLOG_VIS) m)) m.
Proof.
  induction m as [|c m IH]; intros H; cbn [map concat]; [split; constructor|].
  inversion H as [|? ? Hc Hm]; subst. destruct (IH Hm) as [A B]. destruct (syslog_vis c Hc) as [P R].
  split; [apply Forall_app; now split|now apply R].
Qed.

(** ** Standard error *)
Definition stderr_byte (b : Z) : Prop := printable b \/ b = 7 \/ b = 8 \/ b = 9 \/ b = 10 \/ b = 13 \/ (128 <= b <= 255 /\ isgraph b = true).
Lemma stderr_vis : forall c, 1 <= c <= 255 -> Forall stderr_byte (vis c LOG_STDERR_VIS).
Proof.
  intros c Hc. unfold VisModel.vis. destruct (VisModel.isvisible isgraph c LOG_STDERR_VIS) eqn:V.
  - assert (B : stderr_byte c).
    { unfold VisModel.isvisible in V.
      change (has LOG_STDERR_VIS VIS_ALL) with false in V. change (has LOG_STDERR_VIS VIS_GLOB) with false in V.
      change (has LOG_STDERR_VIS VIS_SP) with false in V. change (has LOG_STDERR_VIS VIS_TAB) with false in V.
      change (has LOG_STDERR_VIS VIS_NL) with false in V. change (has LOG_STDERR_VIS VIS_SAFE) with true in V.
      cbn [negb andb orb] in V. rewrite !orb_true_r, !andb_true_r in V. cbn [andb] in V. unfold stderr_byte, printable.
      destruct (isgraph c) eqn:G; [|lia].
      destruct (Z.lt_ge_cases c 128) as [L|L]; [|auto 10 with zarith]. destruct (Cls c) as [[G1 _] _]; [lia|]. specialize (G1 G). lia. }
    unfold slashed. change (has LOG_STDERR_VIS VIS_DQ) with false. rewrite andb_false_r. cbn [orb].
    destruct ((c =? 92) && negb (has LOG_STDERR_VIS VIS_NOSLASH)); repeat (apply Forall_cons || apply Forall_nil); try assumption. left. unfold printable. lia.
  - change (has LOG_STDERR_VIS VIS_CSTYLE) with false. cbv iota. unfold vis_rest.
    change (has LOG_STDERR_VIS VIS_OCTAL) with true. rewrite orb_true_r. cbn [orb].
    eapply Forall_impl; [|apply (octal_printable c Hc)]. intros b Hb. now left.
Qed.
Lemma stderr_all : forall m, c_string m -> Forall stderr_byte (concat (map (fun c => vis c LOG_STDERR_VIS) m)).
Proof.
  induction m as [|c m IH]; intros H; cbn [map concat]; [constructor|].
  inversion H as [|? ? Hc Hm]; subst. apply Forall_app. split; [now apply stderr_vis|now apply IH].
Qed.

(** ** File names without newlines *)
Lemma nl_vis : forall c, 1 <= c <= 255 -> ~ In 10 (vis c VIS_NL).
Proof.
  intros c Hc. unfold VisModel.vis. destruct (VisModel.isvisible isgraph c VIS_NL) eqn:V.
  - assert (c <> 10).
    { intros ->. unfold VisModel.isvisible in V. change (has VIS_NL VIS_NL) with true in V. change (has VIS_NL VIS_SAFE) with false in V.
      change (10 =? 32) with false in V. change (10 =? 9) with false in V. cbn [negb andb orb] in V. rewrite !andb_false_r, !orb_false_r in V.
      destruct (Cls 10) as [[G _] _]; [lia|]. destruct (isgraph 10); [specialize (G eq_refl); lia|]. rewrite !andb_false_r in V. discriminate. }
    destruct (slashed c VIS_NL); cbn [In]; intuition lia.
  - change (has VIS_NL VIS_CSTYLE) with false. cbv iota. unfold vis_rest.
    change (has VIS_NL VIS_OCTAL) with false. change (has VIS_NL VIS_GLOB) with false. change (has VIS_NL VIS_NOSLASH) with false.
    cbn [andb]. rewrite !orb_false_r. destruct (Z.land c 127 =? 32).
    + intros H. pose proof (octal_printable c Hc) as F. rewrite Forall_forall in F. specialize (F _ H). unfold printable in F. lia.
    + cbv zeta. set (d := if negb (Z.land c 128 =? 0) then Z.land c 127 else c).
      assert (D : 0 <= d < 128).
      { pose (P := fun c => let d := if negb (Z.land c 128 =? 0) then Z.land c 127 else c in (0 <=? d) && (d <? 128)).
        assert (H : P c = true) by (apply (range_ind P 256); [reflexivity|lia]). unfold P in H. fold d in H. lia. }
      rewrite !in_app_iff. intros [H|[H|H]].
      * cbn [In] in H. intuition lia.
      * destruct (negb (Z.land c 128 =? 0)); cbn [In] in H; intuition lia.
      * destruct (Cls d D) as [_ [G1 G2]]. destruct (iscntrl d).
        -- specialize (G1 eq_refl). cbn [In] in H. destruct H as [H|H]; [lia|].
           destruct (d =? 127) eqn:Q; cbn [In] in H; [intuition lia|]. destruct H as [H|[]].
           unfold u8, U8 in H. rewrite Z.mod_small in H by lia. lia.
        -- cbn [In] in H. destruct H as [H|[H|[]]]; [lia|]. assert (Q : d < 32 \/ d = 127) by lia. specialize (G2 Q). discriminate.
Qed.
End P.
