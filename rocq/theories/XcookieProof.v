(** Proofs for C82. *)
From Coq Require Import String.
From Verif Require Import Base Text MiscNumModel MiscNumSpec MiscNumProof XcookieModel XcookieSpec.
Local Open Scope Z_scope.

Lemma pad4_eq : forall n, pad4 n = 4 * ((n + 3) / 4).
Proof.
  intros n. unfold pad4. change (Z.lnot 3) with (- 2 ^ 2).
  assert (E : Z.land (n + 3) (- 2 ^ 2) = Z.shiftl (Z.shiftr (n + 3) 2) 2).
  { change (- 2 ^ 2) with (Z.lnot (Z.ones 2)). rewrite <- Z.ldiff_land. rewrite Z.ldiff_ones_r by lia. reflexivity. }
  rewrite E, Z.shiftl_mul_pow2, Z.shiftr_div_pow2 by lia. change (2 ^ 2) with 4. lia.
Qed.
Lemma pad4_fill : forall d p, filler d p <-> zlen p = pad4 (zlen d) - zlen d.
Proof.
  intros d p. unfold filler. rewrite pad4_eq. pose proof (zlen_nonneg _ p). split.
  - intros (L & k & K). assert ((zlen d + 3) / 4 = k); [|lia]. symmetry. apply (Z.div_unique _ _ _ (3 - zlen p)); lia.
  - intros E. pose proof (Z.div_mod (zlen d + 3) 4). pose proof (Z.mod_pos_bound (zlen d + 3) 4). split; [lia|].
    exists ((zlen d + 3) / 4). lia.
Qed.
Lemma pad4_ge : forall n, n <= pad4 n < n + 4.
Proof. intros n. rewrite pad4_eq. pose proof (Z.div_mod (n + 3) 4). pose proof (Z.mod_pos_bound (n + 3) 4). lia. Qed.

(** ** More data *)
Lemma byte_app : forall b d i, 0 <= i < zlen b -> byte (b ++ d) i = byte b i.
Proof. intros b d i H. unfold byte. apply app_nth1. unfold zlen in H. lia. Qed.
Definition more (h : helped) (d : list Z) : helped := match h with HOk o => HOk (o ++ d) | x => x end.
Lemma take_drop_app : forall n k (b d : list Z), 0 <= n -> 0 <= k -> k + n <= zlen b -> ztake n (zdrop k (b ++ d)) = ztake n (zdrop k b).
Proof.
  intros n k b d Hn Hk H. rewrite <- (ztake_zdrop_comm _ n k (b ++ d)) by lia. rewrite ztake_app_l by lia.
  rewrite ztake_zdrop_comm by lia. reflexivity.
Qed.
Lemma zdrop_app_l : forall n (b d : list Z), 0 <= n <= zlen b -> zdrop n (b ++ d) = zdrop n b ++ d.
Proof.
  intros n b d H. pose proof (ztake_zdrop _ n b) as E. rewrite <- E at 1. rewrite <- app_assoc. apply zdrop_app_exact.
  symmetry. apply zlen_ztake. lia.
Qed.
Lemma check_more : forall c b d pl dl, 0 <= pl -> 0 <= dl -> check_packet c b pl dl <> HMore ->
  check_packet c (b ++ d) pl dl = more (check_packet c b pl dl) d.
Proof.
  intros c b d pl dl Hp Hd. unfold check_packet. pose proof (pad4_ge pl). pose proof (pad4_ge dl).
  destruct (Z.ltb_spec (zlen b) (12 + pad4 pl + pad4 dl)) as [L|L]; [congruence|intros _].
  replace (zlen (b ++ d) <? 12 + pad4 pl + pad4 dl) with false by (symmetry; apply Z.ltb_ge; rewrite zlen_app; pose proof (zlen_nonneg _ d); lia).
  rewrite take_drop_app by lia.
  destruct (negb (pl =? zlen (x_proto c))); [reflexivity|].
  destruct (negb (beqb (ztake pl (zdrop 12 b)) (x_proto c))); [reflexivity|].
  destruct (Z.eqb_spec dl (zlen (x_fake c))) as [E|]; [|reflexivity]. cbn [negb].
  rewrite take_drop_app by lia.
  destruct (negb (beqb (ztake (zlen (x_fake c)) (zdrop (12 + pad4 pl) b)) (x_fake c))); [reflexivity|].
  destruct (Z.eqb_spec (zlen (x_fake c)) (zlen (x_saved c))) as [F|]; [|reflexivity]. cbn [negb more].
  unfold overwrite. rewrite ztake_app_l by lia. rewrite zdrop_app_l by lia. rewrite <- !app_assoc. reflexivity.
Qed.
Lemma byte_range : forall b i, is_bytes b -> 0 <= byte b i < 256.
Proof.
  intros b i H. unfold byte. destruct (nth_in_or_default (Z.to_nat i) b 0) as [I|E]; [|rewrite E; lia].
  unfold is_bytes in H. rewrite Forall_forall in H. apply H in I. unfold is_byte in I. lia.
Qed.
Lemma helper_more : forall c b d, is_bytes b -> helper c b <> HMore -> helper c (b ++ d) = more (helper c b) d.
Proof.
  intros c b d B. unfold helper. pose proof (zlen_nonneg _ d). destruct (Z.ltb_spec (zlen b) 12) as [L|L]; [congruence|].
  replace (zlen (b ++ d) <? 12) with false by (symmetry; apply Z.ltb_ge; rewrite zlen_app; lia).
  rewrite !byte_app by lia. pose proof (byte_range b 6 B). pose proof (byte_range b 7 B). pose proof (byte_range b 8 B). pose proof (byte_range b 9 B).
  destruct (byte b 0 =? 66); [intros N; apply check_more; try lia; exact N|].
  destruct (byte b 0 =? 108); [intros N; apply check_more; try lia; exact N|]. reflexivity.
Qed.

(** ** What is accepted *)
Definition packet (c : xcfg) (proto cookie before after b : list Z) : Prop :=
  around proto cookie before after /\ exists rest, b = before ++ cookie ++ after ++ rest.
Lemma split12 : forall b : list Z, 12 <= zlen b ->
  exists b0 b1 b2 b3 b4 b5 b6 b7 b8 b9 b10 b11 r, b = [b0; b1; b2; b3; b4; b5; b6; b7; b8; b9; b10; b11] ++ r.
Proof.
  intros b L.
  do 12 (destruct b as [|? b]; [unfold zlen in L; cbn [length] in L; lia|]).
  do 13 eexists. reflexivity.
Qed.
Lemma lf_iff : forall o n x y, 0 <= x < 256 -> 0 <= y < 256 ->
  (length_field o n [x; y] <-> (o = 66 /\ n = 256 * x + y) \/ (o = 108 /\ n = x + 256 * y)).
Proof.
  intros o n x y X Y. split.
  - intros H. inversion H; subst; [left|right]; split; auto; lia.
  - intros [(-> & ->) | (-> & ->)]; [apply (lf_msb _ x y) | apply (lf_lsb _ y x)]; auto; lia.
Qed.
Lemma lf_two : forall o n l, length_field o n l -> exists x y, l = [x; y] /\ 0 <= x < 256 /\ 0 <= y < 256.
Proof. intros o n l H. inversion H; subst; eauto. Qed.
(** Where a complete packet stands *)
Lemma check_complete : forall c order v w lp ld proto cookie p1 p2 rest, 
  filler proto p1 -> filler cookie p2 -> zlen v = 5 -> zlen w = 2 -> zlen lp = 2 -> zlen ld = 2 ->
  let before := [order] ++ v ++ lp ++ ld ++ w ++ proto ++ p1 in
  check_packet c (before ++ cookie ++ p2 ++ rest) (zlen proto) (zlen cookie) =
    if beqb proto (x_proto c) && beqb cookie (x_fake c) && (zlen (x_fake c) =? zlen (x_saved c)) then HOk (before ++ x_saved c ++ p2 ++ rest) else HBad.
Proof.
  intros c order v w lp ld proto cookie p1 p2 rest F1 F2 Lv Lw L1 L2 before.
  apply pad4_fill in F1. apply pad4_fill in F2.
  assert (Lb : zlen before = 12 + pad4 (zlen proto)).
  { unfold before. rewrite !zlen_app, Lv, Lw, L1, L2, F1. unfold zlen at 1. cbn [length]. lia. }
  unfold check_packet.
  replace (zlen (before ++ cookie ++ p2 ++ rest) <? 12 + pad4 (zlen proto) + pad4 (zlen cookie)) with false
    by (symmetry; apply Z.ltb_ge; rewrite !zlen_app, Lb, F2; pose proof (zlen_nonneg _ rest); lia).
  assert (T1 : ztake (zlen proto) (zdrop 12 (before ++ cookie ++ p2 ++ rest)) = proto).
  { unfold before. 
    replace (([order] ++ v ++ lp ++ ld ++ w ++ proto ++ p1) ++ cookie ++ p2 ++ rest) with (([order] ++ v ++ lp ++ ld ++ w) ++ proto ++ p1 ++ cookie ++ p2 ++ rest)
      by (rewrite <- !app_assoc; reflexivity).
    rewrite zdrop_app_exact; [apply ztake_app_exact; reflexivity|].
    rewrite !zlen_app, Lv, Lw, L1, L2. reflexivity. }
  rewrite T1.
  destruct (beqb proto (x_proto c)) eqn:E1.
  - pose proof E1 as E1'. apply beqb_eq in E1'. rewrite E1' at 1. rewrite Z.eqb_refl. cbn [negb andb].
    destruct (Z.eqb_spec (zlen cookie) (zlen (x_fake c))) as [E2|E2]; cbn [negb].
    + rewrite zdrop_app_exact by lia. rewrite ztake_app_exact by lia.
      destruct (beqb cookie (x_fake c)) eqn:E3; cbn [negb andb]; [|reflexivity].
      destruct (Z.eqb_spec (zlen (x_fake c)) (zlen (x_saved c))) as [E4|E4]; cbn [negb]; [|reflexivity].
      unfold overwrite. rewrite <- Lb. rewrite ztake_app_exact by reflexivity.
      replace (before ++ cookie ++ p2 ++ rest) with ((before ++ cookie) ++ p2 ++ rest) by (rewrite <- app_assoc; reflexivity).
      rewrite zdrop_app_exact by (rewrite zlen_app; lia). reflexivity.
    + destruct (beqb cookie (x_fake c)) eqn:E3; [apply beqb_eq in E3; congruence|]. reflexivity.
  - cbn [andb]. cbn [negb]. destruct (negb (zlen proto =? zlen (x_proto c))); reflexivity.
Qed.
Lemma len5 : forall v : list Z, zlen v = 5 -> exists a b c d e, v = [a; b; c; d; e].
Proof.
  intros v L. do 5 (destruct v as [|? v]; [unfold zlen in L; cbn [length] in L; lia|]).
  destruct v; [do 5 eexists; reflexivity|unfold zlen in L; cbn [length] in L; lia].
Qed.
Lemma len2 : forall v : list Z, zlen v = 2 -> exists a b, v = [a; b].
Proof.
  intros v L. do 2 (destruct v as [|? v]; [unfold zlen in L; cbn [length] in L; lia|]).
  destruct v; [do 2 eexists; reflexivity|unfold zlen in L; cbn [length] in L; lia].
Qed.
Lemma helper_around : forall c proto cookie before after rest, around proto cookie before after ->
  helper c (before ++ cookie ++ after ++ rest) =
    if beqb proto (x_proto c) && beqb cookie (x_fake c) && (zlen (x_fake c) =? zlen (x_saved c)) then HOk (before ++ x_saved c ++ after ++ rest) else HBad.
Proof.
  intros c proto cookie before after rest (o & v & w & lp & ld & p1 & p2 & H1 & H2 & Lv & Lw & F1 & F2 & -> & ->).
  destruct (lf_two _ _ _ H1) as (x & y & -> & X & Y). destruct (lf_two _ _ _ H2) as (x' & y' & -> & X' & Y').
  pose proof (check_complete c o v w [x; y] [x'; y'] proto cookie p1 p2 rest F1 F2 Lv Lw eq_refl eq_refl) as K. cbv zeta in K. rewrite <- K. clear K.
  destruct (len5 _ Lv) as (a1 & a2 & a3 & a4 & a5 & ->). destruct (len2 _ Lw) as (w1 & w2 & ->).
  apply lf_iff in H1; auto. apply lf_iff in H2; auto.
  unfold helper. cbn [app].
  match goal with |- (if zlen ?l <? 12 then _ else _) = _ => replace (zlen l <? 12) with false end.
  2: { symmetry. apply Z.ltb_ge. rewrite !zlen_cons. match goal with |- _ <= zlen ?l + _ + _ + _ + _ + _ + _ + _ + _ + _ + _ + _ + _ => pose proof (zlen_nonneg _ l) end. lia. }
  unfold byte. change (Z.to_nat 0) with 0%nat. change (Z.to_nat 6) with 6%nat. change (Z.to_nat 7) with 7%nat. change (Z.to_nat 8) with 8%nat. change (Z.to_nat 9) with 9%nat.
  cbn [nth].
  destruct H1 as [(-> & E1) | (-> & E1)], H2 as [(O & E2) | (O & E2)]; try discriminate O; rewrite E1, E2; reflexivity.
Qed.
Lemma cut : forall n (b : list Z), 0 <= n <= zlen b -> exists x y, b = x ++ y /\ zlen x = n /\ zlen y = zlen b - n.
Proof.
  intros n b H. exists (ztake n b), (zdrop n b). rewrite ztake_zdrop. split; [reflexivity|]. rewrite zlen_ztake by lia. split; [reflexivity|].
  pose proof (f_equal (@zlen Z) (ztake_zdrop _ n b)) as E. rewrite zlen_app, zlen_ztake in E by lia. lia.
Qed.
Lemma build_around : forall o b1 b2 b3 b4 b5 b6 b7 b8 b9 b10 b11 r pl dl, 0 <= pl -> 0 <= dl ->
  length_field o pl [b6; b7] -> length_field o dl [b8; b9] -> pad4 pl + pad4 dl <= zlen r ->
  exists proto cookie before after rest, around proto cookie before after /\
    [o; b1; b2; b3; b4; b5; b6; b7; b8; b9; b10; b11] ++ r = before ++ cookie ++ after ++ rest.
Proof.
  intros o b1 b2 b3 b4 b5 b6 b7 b8 b9 b10 b11 r pl dl Hp Hd H1 H2 L. pose proof (pad4_ge pl). pose proof (pad4_ge dl).
  destruct (cut pl r) as (proto & r1 & -> & P1 & Q1); [lia|].
  destruct (cut (pad4 pl - pl) r1) as (p1 & r2 & -> & P2 & Q2); [lia|].
  destruct (cut dl r2) as (cookie & r3 & -> & P3 & Q3); [lia|].
  destruct (cut (pad4 dl - dl) r3) as (p2 & rest & -> & P4 & Q4); [lia|].
  exists proto, cookie, ([o] ++ [b1; b2; b3; b4; b5] ++ [b6; b7] ++ [b8; b9] ++ [b10; b11] ++ proto ++ p1), p2, rest. split.
  - exists o, [b1; b2; b3; b4; b5], [b10; b11], [b6; b7], [b8; b9], p1, p2. splits; rewrite ?P1, ?P3; auto; apply pad4_fill; rewrite ?P1, ?P3; lia.
  - cbn [app]. rewrite <- !app_assoc. reflexivity.
Qed.
Lemma check_len : forall c b pl dl o, check_packet c b pl dl = HOk o -> 12 + pad4 pl + pad4 dl <= zlen b.
Proof. intros c b pl dl o. unfold check_packet. destruct (Z.ltb_spec (zlen b) (12 + pad4 pl + pad4 dl)); [discriminate|auto]. Qed.
Lemma helper_ok : forall c b o, is_bytes b -> (helper c b = HOk o <->
  exists before after rest, around (x_proto c) (x_fake c) before after /\ zlen (x_fake c) = zlen (x_saved c) /\
    b = before ++ x_fake c ++ after ++ rest /\ o = before ++ x_saved c ++ after ++ rest).
Proof.
  intros c b o B. split.
  - intros H.
    assert (exists proto cookie before after rest, around proto cookie before after /\ b = before ++ cookie ++ after ++ rest) as (proto & cookie & before & after & rest & A & ->).
    { unfold helper in H. destruct (Z.ltb_spec (zlen b) 12) as [L|L]; [discriminate|].
      pose proof (byte_range b 6 B). pose proof (byte_range b 7 B). pose proof (byte_range b 8 B). pose proof (byte_range b 9 B).
      destruct (split12 b L) as (b0 & b1 & b2 & b3 & b4 & b5 & b6 & b7 & b8 & b9 & b10 & b11 & r & ->).
      change (byte ([b0; b1; b2; b3; b4; b5; b6; b7; b8; b9; b10; b11] ++ r) 0) with b0 in *.
      change (byte ([b0; b1; b2; b3; b4; b5; b6; b7; b8; b9; b10; b11] ++ r) 6) with b6 in *.
      change (byte ([b0; b1; b2; b3; b4; b5; b6; b7; b8; b9; b10; b11] ++ r) 7) with b7 in *.
      change (byte ([b0; b1; b2; b3; b4; b5; b6; b7; b8; b9; b10; b11] ++ r) 8) with b8 in *.
      change (byte ([b0; b1; b2; b3; b4; b5; b6; b7; b8; b9; b10; b11] ++ r) 9) with b9 in *.
      assert (Z12 : zlen ([b0; b1; b2; b3; b4; b5; b6; b7; b8; b9; b10; b11] ++ r) = 12 + zlen r) by (rewrite zlen_app; reflexivity).
      destruct (Z.eqb_spec b0 66) as [-> | N1].
      - pose proof (check_len _ _ _ _ _ H). apply (build_around _ _ _ _ _ _ _ _ _ _ _ _ _ (256 * b6 + b7) (256 * b8 + b9)); try lia; apply lf_iff; auto.
      - destruct (Z.eqb_spec b0 108) as [-> | N2]; [|discriminate].
        pose proof (check_len _ _ _ _ _ H). apply (build_around _ _ _ _ _ _ _ _ _ _ _ _ _ (b6 + 256 * b7) (b8 + 256 * b9)); try lia; apply lf_iff; auto. }
    rewrite (helper_around _ _ _ _ _ _ A) in H.
    destruct (beqb proto (x_proto c)) eqn:E1; [|discriminate]. destruct (beqb cookie (x_fake c)) eqn:E2; [|discriminate].
    destruct (Z.eqb_spec (zlen (x_fake c)) (zlen (x_saved c))) as [E3|]; [|discriminate]. apply beqb_eq in E1. apply beqb_eq in E2. subst proto cookie.
    cbn [andb] in H. injection H as <-. exists before, after, rest. auto.
  - intros (before & after & rest & A & L & -> & ->). rewrite (helper_around _ _ _ _ _ _ A).
    rewrite (proj2 (beqb_eq _ _) eq_refl), (proj2 (beqb_eq _ _) eq_refl), L, Z.eqb_refl. reflexivity.
Qed.

(** ** Runs *)
Definition state_of (c : xcfg) (b : list Z) : xchan := match helper c b with HMore => XWait b | HBad => XShut | HOk o => XOpen o end.
Lemma step_state : forall c b t d, is_bytes b -> (x_deadline c = 0 \/ t < x_deadline c) -> xstep c (state_of c b) (t, d) = state_of c (b ++ d).
Proof.
  intros c b t d B T. unfold state_of. destruct (helper c b) as [| |o] eqn:E.
  - unfold xstep, x11_open_helper. cbn [fst snd].
    replace (negb (x_deadline c =? 0) && (x_deadline c <=? t)) with false; [reflexivity|].
    symmetry. destruct T as [-> | T]; [reflexivity|]. apply andb_false_iff. right. apply Z.leb_gt. lia.
  - rewrite (helper_more c b d B) by congruence. rewrite E. reflexivity.
  - rewrite (helper_more c b d B) by congruence. rewrite E. reflexivity.
Qed.
Lemma received_app : forall a b, received (a ++ b) = received a ++ received b.
Proof. intros a b. unfold received. rewrite map_app, concat_app. reflexivity. Qed.
Lemma xrun_snoc : forall c es e, xrun c (es ++ [e]) = xstep c (xrun c es) e.
Proof. intros c es e. unfold xrun. rewrite fold_left_app. reflexivity. Qed.
Lemma in_time_app : forall c a b, in_time c (a ++ b) <-> in_time c a /\ in_time c b.
Proof. intros c a b. unfold in_time. rewrite Forall_app. tauto. Qed.
Lemma bytes_app_received : forall a b, is_bytes (received (a ++ b)) <-> is_bytes (received a) /\ is_bytes (received b).
Proof. intros a b. rewrite received_app. apply is_bytes_app. Qed.
Lemma xrun_state : forall c es, is_bytes (received es) -> in_time c es -> xrun c es = state_of c (received es).
Proof.
  intros c es. induction es as [|(t, d) es IH] using rev_ind; intros B T; [reflexivity|].
  apply bytes_app_received in B. destruct B as (B & _). apply in_time_app in T. destruct T as (T1 & T2).
  rewrite xrun_snoc, IH, received_app by assumption. unfold received at 3. cbn [map concat snd]. rewrite app_nil_r.
  apply step_state; [assumption|]. destruct T2 as [|T2]; [auto|]. right. inversion T2; assumption.
Qed.
Lemma open_on : forall c o es, fold_left (xstep c) es (XOpen o) = XOpen (o ++ received es).
Proof.
  intros c o es. revert o. induction es as [|(t, d) es IH]; intros o; [unfold received; cbn [map concat fold_left]; rewrite app_nil_r; reflexivity|].
  cbn [fold_left xstep snd]. rewrite IH. unfold received. cbn [map concat snd]. rewrite app_assoc. reflexivity.
Qed.
(** A channel that waits has not been late *)
Lemma wait_inv : forall c es b, xrun c es = XWait b -> in_time c es /\ b = received es.
Proof.
  intros c es. induction es as [|(t, d) es IH] using rev_ind; intros b H.
  - injection H as <-. split; [right; constructor|reflexivity].
  - rewrite xrun_snoc in H. destruct (xrun c es) as [b1|o|] eqn:E; cbn [xstep] in H; try discriminate.
    destruct (IH _ eq_refl) as (T & ->). unfold x11_open_helper in H. cbn [fst snd] in H.
    destruct (Z.eqb_spec (x_deadline c) 0) as [Z0|Z0]; cbn [negb andb] in H.
    + destruct (helper c (received es ++ d)); try discriminate. injection H as <-. split; [left; assumption|].
      rewrite received_app. unfold received at 3. cbn [map concat snd]. rewrite app_nil_r. reflexivity.
    + destruct (Z.leb_spec (x_deadline c) t) as [L|L]; [discriminate|]. destruct (helper c (received es ++ d)); try discriminate.
      injection H as <-. split.
      * apply in_time_app. split; [assumption|]. right. constructor; [assumption|constructor].
      * rewrite received_app. unfold received at 3. cbn [map concat snd]. rewrite app_nil_r. reflexivity.
Qed.
Lemma open_inv : forall c es o, xrun c es = XOpen o -> exists es1 es2 o1, es = es1 ++ es2 /\ in_time c es1 /\ helper c (received es1) = HOk o1 /\ o = o1 ++ received es2.
Proof.
  intros c es. induction es as [|(t, d) es IH] using rev_ind; intros o H; [discriminate|].
  rewrite xrun_snoc in H. destruct (xrun c es) as [b1|o1|] eqn:E; cbn [xstep] in H; try discriminate.
  - destruct (wait_inv _ _ _ E) as (T & ->). unfold x11_open_helper in H. cbn [fst snd] in H.
    destruct (negb (x_deadline c =? 0) && (x_deadline c <=? t)) eqn:D; [discriminate|].
    destruct (helper c (received es ++ d)) eqn:K; try discriminate. injection H as <-.
    exists (es ++ [(t, d)]), [], b. splits.
    + rewrite app_nil_r. reflexivity.
    + apply in_time_app. split; [assumption|]. apply andb_false_iff in D. destruct D as [D|D].
      * left. apply negb_false_iff in D. apply Z.eqb_eq in D. exact D.
      * right. constructor; [apply Z.leb_gt in D; exact D|constructor].
    + rewrite received_app. unfold received at 2. cbn [map concat snd]. rewrite app_nil_r. exact K.
    + rewrite app_nil_r. reflexivity.
  - destruct (IH _ eq_refl) as (es1 & es2 & o2 & -> & T & K & ->). injection H as <-.
    exists es1, (es2 ++ [(t, d)]), o2. splits; auto; [rewrite app_assoc; reflexivity|].
    rewrite received_app. unfold received at 3. cbn [map concat snd]. rewrite app_nil_r, <- app_assoc. reflexivity.
Qed.

(** ** Requests *)
Lemma hexes_flat : forall l, is_bytes l -> hexes l (flat_map (fun c => [hexdig (c / 16); hexdig (c mod 16)]) l).
Proof.
  intros l. induction l as [|c l IH]; intros B; [constructor|].
  inversion B as [|? ? H1 H2]; subst. unfold is_byte in H1.
  assert (K : forall n, 0 <= n < 16 -> hex_digit (hexdig n) n).
  { intros n N. apply hexval_iff. unfold hexval, hexdig. destruct (Z.ltb_spec n 10).
    - replace ((48 <=? 48 + n) && (48 + n <=? 57)) with true by (symmetry; apply andb_true_iff; split; apply Z.leb_le; lia). f_equal. lia.
    - replace ((48 <=? 87 + n) && (87 + n <=? 57)) with false by (symmetry; apply andb_false_iff; right; apply Z.leb_gt; lia).
      replace ((97 <=? 87 + n) && (87 + n <=? 102)) with true by (symmetry; apply andb_true_iff; split; apply Z.leb_le; lia). f_equal. lia. }
  cbn [flat_map app]. constructor.
  - apply K. split; [apply Z.div_pos; lia|apply Z.div_lt_upper_bound; lia].
  - apply K. apply Z.mod_pos_bound. lia.
  - apply IH. assumption.
Qed.
Lemma unhex_len : forall sc n d v, unhex sc n d = Some v -> zlen v = Z.of_nat n.
Proof.
  intros sc n. induction n as [|n IH]; intros d v H; cbn [unhex] in H; [injection H as <-; reflexivity|].
  destruct (sc d); [|discriminate]. destruct (unhex sc n (tl (tl d))) as [r|] eqn:E; [|discriminate]. injection H as <-.
  rewrite zlen_cons, (IH _ _ E). lia.
Qed.
Lemma half_nonneg : forall l : list Z, 0 <= zlen l / 2.
Proof. intros l. apply Z.div_pos; [apply zlen_nonneg|lia]. Qed.
Lemma is_bytes_ztake : forall n l, is_bytes l -> is_bytes (ztake n l).
Proof. intros n l B. rewrite <- (ztake_zdrop _ n l) in B. apply is_bytes_app in B. apply B. Qed.
Lemma tohex_spec : forall f n h, is_bytes f -> tohex f n = Some h -> 
  (n <= 65536 /\ n <= zlen f /\ hexes (ztake n f) h) \/ (65536 < n /\ h = bs "tohex: length > 65536").
Proof.
  intros f n h B H. unfold tohex in H. destruct (Z.ltb_spec 65536 n); [injection H as <-; auto|].
  destruct (Z.ltb_spec (zlen f) n); [discriminate|]. injection H as <-. left. splits; try lia. apply hexes_flat. apply is_bytes_ztake. assumption.
Qed.

