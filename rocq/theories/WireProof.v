From Coq Require Import String.
From Verif Require Import Base SshbufModel SshbufSpec SshbufProof WireModel WireSpec.

Definition dec (x : wval) (l : list Z) : res (rv * list Z) :=
  match x with
  | WInt w _ => if Z.of_nat w <=? zlen l
                then ROk (VInt (be_dec (ztake (Z.of_nat w) l)), zdrop (Z.of_nat w) l)
                else RErr SSH_ERR_MESSAGE_INCOMPLETE
  | WStr _ => match dec_string l with ROk (v, r) => ROk (VBytes v, r) | RErr e => RErr e end
  | WCstr _ => match dec_cstring l with ROk (v, r) => ROk (VBytes v, r) | RErr e => RErr e end
  | WMpint _ => match dec_mpint l with ROk (v, r) => ROk (VBytes v, r) | RErr e => RErr e end
  end.

Lemma dec_string_ok : forall v rest, zlen v <= SSHBUF_SIZE_MAX - 4 ->
  dec_string (enc_string v ++ rest) = ROk (v, rest).
Proof.
  intros v rest H. unfold dec_string, enc_string. pose proof (zlen_nonneg Z v). pose proof (zlen_nonneg Z rest).
  assert (H4 : zlen (be_enc 4 (zlen v)) = 4) by apply zlen_be_enc.
  rewrite <- app_assoc, zlen_app, zlen_app.
  replace (zlen (be_enc 4 (zlen v)) + (zlen v + zlen rest) <? 4) with false by lia.
  rewrite ztake_app_exact, zdrop_app_exact by auto.
  rewrite be_dec_enc_id by (consts; change (256 ^ Z.of_nat 4) with 4294967296; lia).
  replace (SSHBUF_SIZE_MAX - 4 <? zlen v) with false by lia.
  rewrite zlen_app. replace (zlen v + zlen rest <? zlen v) with false by lia.
  now rewrite ztake_app_exact, zdrop_app_exact.
Qed.

Lemma find_nul_none : forall v, ~ In 0 v -> find_nul v = None.
Proof.
  induction v as [|b v IH]; cbn; intros H; [reflexivity|].
  destruct (b =? 0) eqn:E; [exfalso; apply H; left; lia|]. rewrite IH; auto.
Qed.
Lemma strip0_id : forall v, (forall r, v <> 0 :: r) -> strip0 v = v.
Proof. intros [|b v] H; [reflexivity|]. cbn. destruct (b =? 0) eqn:E; [|reflexivity].
  exfalso. apply (H v). f_equal. lia. Qed.
Lemma strip0_spec : forall v, exists k, v = repeat 0 k ++ strip0 v /\ (forall r, strip0 v <> 0 :: r).
Proof.
  induction v as [|b v IH]. { exists 0%nat. split; [reflexivity|discriminate]. }
  cbn [strip0]. destruct (b =? 0) eqn:E.
  - destruct IH as (k & Hk & Hn). exists (S k). cbn [repeat app]. split; [|assumption].
    replace b with 0 by lia. f_equal. assumption.
  - exists 0%nat. split; [reflexivity|]. intros r H. inversion H. lia.
Qed.

Lemma dec_enc : forall x rest, wvalid x -> dec x (enc x ++ rest) = ROk (got x, rest).
Proof.
  intros [w v|v|v|v] rest H; cbn [wvalid dec enc got] in *.
  - destruct H as [Hw Hv]. pose proof (zlen_nonneg Z rest).
    assert (HL : zlen (be_enc w v) = Z.of_nat w) by apply zlen_be_enc.
    replace (Z.of_nat w <=? zlen (be_enc w v ++ rest)) with true by (rewrite zlen_app; lia).
    rewrite ztake_app_exact, zdrop_app_exact by lia. now rewrite be_dec_enc_id.
  - rewrite dec_string_ok by (consts; lia). reflexivity.
  - unfold dec_cstring. rewrite dec_string_ok by (consts; lia).
    unfold nul_ok. rewrite find_nul_none by tauto. reflexivity.
  - destruct H as (Hb & Hl & Hn). unfold dec_mpint, enc_mpint.
    assert (HB : mpint_body v = if msb v then 0 :: v else v)
      by (unfold mpint_body; now rewrite strip0_id).
    pose proof (zlen_nonneg Z v).
    assert (HBl : zlen (mpint_body v) <= 2049).
    { rewrite HB. destruct (msb v); [rewrite zlen_cons|]; lia. }
    rewrite dec_string_ok by (consts; lia).
    assert (HM : msb (mpint_body v) = false).
    { rewrite HB. destruct (msb v) eqn:E; [reflexivity|assumption]. }
    rewrite HM.
    replace ((SSHBUF_MAX_BIGNUM + 1 <? zlen (mpint_body v)) ||
      (zlen (mpint_body v) =? SSHBUF_MAX_BIGNUM + 1) && negb (hd 0 (mpint_body v) =? 0)) with false.
    + replace (strip0 (mpint_body v)) with v; [reflexivity|].
      rewrite HB. destruct (msb v); [cbn [strip0 Z.eqb]|]; now rewrite strip0_id.
    + symmetry. rewrite HB. destruct (msb v).
      * cbn [hd]. rewrite zlen_cons. consts. change (0 =? 0) with true. cbn [negb]. lia.
      * consts. lia.
Qed.

Lemma get_dec : forall b x, wf b -> wvalid x ->
  exists r b', do_op (get_op x) b = Ret r b' /\ wf b' /\
    match dec x (contents b) with
    | ROk (v, rest) => r = ROk v /\ contents b' = rest
    | RErr e => r = RErr e /\ contents b' = contents b
    end.
Proof.
  intros b x H Hv.
  assert (Ho : op_ok (get_op x)) by (destruct x; cbn in *; tauto).
  assert (Hr : reset_safe (get_op x) b) by (destruct x; exact I).
  destruct (step_ok _ b H Ho Hr) as (r & b' & E & W & Q).
  exists r, b'. splits; auto.
  destruct x; cbn [get_op qstep dec decoded] in *; unfold decoded in Q; cbn [queue_of q] in Q.
  - destruct (Z.of_nat w <=? zlen (contents b)).
    + destruct Q as [-> Q]. split; [reflexivity|]. apply (f_equal q) in Q. exact Q.
    + destruct Q as [-> Q]. split; [reflexivity|]. apply (f_equal q) in Q. exact Q.
  - destruct (dec_string (contents b)) as [[v' r']|e]; destruct Q as [-> Q]; apply (f_equal q) in Q; auto.
  - destruct (dec_cstring (contents b)) as [[v' r']|e]; destruct Q as [-> Q]; apply (f_equal q) in Q; auto.
  - destruct (dec_mpint (contents b)) as [[v' r']|e]; destruct Q as [-> Q]; apply (f_equal q) in Q; auto.
Qed.

Lemma put_enc : forall b x, wf b -> wvalid x ->
  exists r b', do_op (put_op x) b = Ret r b' /\ wf b' /\ shared b' = shared b /\ max_size b' = max_size b /\
    ((shared b = false /\ zlen (contents b) + zlen (enc x) <= max_size b /\
        r = ROk VUnit /\ contents b' = contents b ++ enc x) \/
     (~ (shared b = false /\ zlen (contents b) + zlen (enc x) <= max_size b) /\
        (exists e, r = RErr e) /\ contents b' = contents b)).
Proof.
  intros b x H Hv.
  assert (Ho : op_ok (put_op x)).
  { destruct x; cbn [wvalid put_op op_ok] in *; try tauto; split; try tauto; unfold SIZE_MAX, U64; lia. }
  assert (Hr : reset_safe (put_op x) b) by (destruct x; exact I).
  destruct (step_ok _ b H Ho Hr) as (r & b' & E & W & Q).
  destruct (step_meta _ _ _ _ Q) as [S M].
  exists r, b'. splits; auto.
  { rewrite M. destruct x; reflexivity. }
  assert (HA : appended true (enc x) (queue_of b) r (queue_of b')).
  { destruct x; cbn [put_op qstep enc] in *; auto.
    assert (SSHBUF_SIZE_MAX - 5 <? zlen v = false) as HL
      by (destruct Hv as (_ & Hv & _); consts; lia).
    now rewrite HL in Q. }
  unfold appended in HA. cbn [queue_of q qmax qwritable] in HA.
  destruct (shared b); cbn [negb andb] in HA.
  - right. split; [intros [? _]; discriminate|]. destruct HA as [HA HB]. apply (f_equal q) in HB.
    split; [|exact HB]. destruct HA as [->|[_ ->]]; eexists; reflexivity.
  - destruct (zlen (contents b) + zlen (enc x) <=? max_size b) eqn:El.
    + destruct HA as [[-> HB]|(_ & ? & _)]; [|discriminate]. apply (f_equal q) in HB.
      left. splits; auto. lia.
    + right. split; [intros [_ ?]; lia|]. destruct HA as [HA HB]. apply (f_equal q) in HB.
      split; [|exact HB]. destruct HA as [->|[? _]]; [eexists; reflexivity|discriminate].
Qed.

Definition enc_all (xs : list wval) : list Z := flat_map enc xs.

Lemma puts_enc : forall xs b rs b', wf b -> Forall wvalid xs -> run_ops (map put_op xs) b = Some (rs, b') ->
  all_ok rs -> wf b' /\ contents b' = contents b ++ enc_all xs.
Proof.
  induction xs as [|x xs IH]; intros b rs b' H Hv E Hok.
  - inversion E; subst. split; [assumption|]. now rewrite app_nil_r.
  - inversion Hv; subst. cbn [map run_ops] in E.
    destruct (put_enc b x H H2) as (r & b1 & E1 & W & S & M & HC). rewrite E1 in E.
    destruct (run_ops (map put_op xs) b1) as [[rs1 b2]|] eqn:E2; [|discriminate].
    inversion E; subst. inversion Hok; subst. destruct H4 as [y ->].
    destruct HC as [(_ & _ & _ & C)|(_ & [e He] & _)]; [|discriminate].
    destruct (IH b1 rs1 b' W H3 E2 H5) as [W' C']. split; [assumption|].
    rewrite C', C, <- app_assoc. reflexivity.
Qed.

Lemma puts_fit : forall xs b, wf b -> Forall wvalid xs -> shared b = false ->
  zlen (contents b ++ enc_all xs) <= max_size b ->
  exists rs b', run_ops (map put_op xs) b = Some (rs, b') /\ all_ok rs.
Proof.
  induction xs as [|x xs IH]; intros b H Hv Hs Hl.
  - exists [], b. split; [reflexivity|constructor].
  - inversion Hv; subst. cbn [map run_ops].
    destruct (put_enc b x H H2) as (r & b1 & E1 & W & S & M & HC). rewrite E1.
    unfold enc_all in Hl. cbn [flat_map] in Hl. fold (enc_all xs) in Hl.
    pose proof (zlen_nonneg Z (enc_all xs)).
    rewrite !zlen_app in Hl.
    destruct HC as [(_ & _ & -> & C)|(Hn & _ & _)].
    2:{ exfalso. apply Hn. split; [assumption|]. lia. }
    destruct (IH b1 W H3) as (rs & b' & E' & Hok); [congruence| |].
    { rewrite C, M, !zlen_app. lia. }
    rewrite E'. eexists _, _. split; [reflexivity|]. constructor; [eauto|assumption].
Qed.

Lemma gets_dec : forall xs b tail, wf b -> Forall wvalid xs -> contents b = enc_all xs ++ tail ->
  exists b', run_ops (map get_op xs) b = Some (map (fun x => ROk (got x)) xs, b') /\ contents b' = tail.
Proof.
  induction xs as [|x xs IH]; intros b tail H Hv C.
  - exists b. auto.
  - inversion Hv; subst. cbn [map run_ops].
    destruct (get_dec b x H H2) as (r & b1 & E1 & W & HC). rewrite E1.
    unfold enc_all in C. cbn [flat_map] in C. fold (enc_all xs) in C. rewrite <- app_assoc in C.
    rewrite C, dec_enc in HC by assumption. destruct HC as [-> HC].
    destruct (IH b1 tail W H3 HC) as (b' & E' & C'). rewrite E'. exists b'. auto.
Qed.

Lemma dec_shape : forall x y l, shape x = shape y -> dec x l = dec y l.
Proof. intros [] [] l H; cbn in *; inversion H; subst; reflexivity. Qed.
Lemma got_inj : forall x y, shape x = shape y -> got x = got y -> x = y.
Proof. intros [] [] H1 H2; cbn in *; inversion H1; inversion H2; subst; reflexivity. Qed.

Lemma enc_inj : forall xs ys t u, Forall wvalid xs -> Forall wvalid ys -> map shape xs = map shape ys ->
  enc_all xs ++ t = enc_all ys ++ u -> xs = ys /\ t = u.
Proof.
  induction xs as [|x xs IH]; intros [|y ys] t u Hx Hy Hs E; cbn [map] in *; try discriminate.
  - auto.
  - inversion Hx; subst. inversion Hy; subst. injection Hs as Hs1 Hs2.
    unfold enc_all in E. cbn [flat_map] in E. fold (enc_all xs) (enc_all ys) in E.
    rewrite <- !app_assoc in E.
    pose proof (dec_enc x (enc_all xs ++ t) H1) as D1.
    pose proof (dec_enc y (enc_all ys ++ u) H3) as D2.
    rewrite E, (dec_shape x y _ Hs1), D2 in D1. inversion D1 as [[G R]].
    destruct (IH ys t u H2 H4 Hs2) as [-> ->]; auto.
    split; [|reflexivity]. f_equal. apply got_inj; auto.
Qed.

(** ** mpint *)

Lemma be_dec_zeros : forall k v, be_dec (repeat 0 k ++ v) = be_dec v.
Proof. unfold be_dec. induction k; intros v; [reflexivity|]. cbn [repeat app be_acc]. apply IHk. Qed.

Lemma be_dec_strip0 : forall v, be_dec (strip0 v) = be_dec v.
Proof. intros v. destruct (strip0_spec v) as (k & E & _). rewrite E at 2. now rewrite be_dec_zeros. Qed.

Lemma be_dec_pos : forall v, is_bytes v -> (forall r, v <> 0 :: r) -> v <> [] -> 256 ^ (zlen v - 1) <= be_dec v.
Proof.
  intros [|b v] Hb Hn Hv; [congruence|]. inversion Hb; subst. unfold is_byte in *.
  assert (b <> 0) by (intros ->; apply (Hn v); reflexivity).
  unfold be_dec. cbn [be_acc]. rewrite zlen_cons.
  pose proof (be_acc_bound v (0 * 256 + b) H2 ltac:(lia)).
  assert (0 < 256 ^ zlen v) by (apply Z.pow_pos_nonneg; [lia|apply zlen_nonneg]).
  replace (zlen v + 1 - 1) with (zlen v) by lia. nia.
Qed.

Lemma stripped_unique : forall a b, is_bytes a -> is_bytes b ->
  (forall r, a <> 0 :: r) -> (forall r, b <> 0 :: r) -> be_dec a = be_dec b -> a = b.
Proof.
  intros a b Ha Hb Na Nb E.
  assert (HL : zlen a = zlen b).
  { destruct (list_eq_dec Z.eq_dec a []) as [->|Xa], (list_eq_dec Z.eq_dec b []) as [->|Xb]; auto.
    - pose proof (be_dec_pos b Hb Nb Xb). pose proof (zlen_nonneg Z b).
      assert (zlen b <> 0) by (intros Z0; apply Xb, zlen_zero_nil, Z0).
      assert (0 < 256 ^ (zlen b - 1)) by (apply Z.pow_pos_nonneg; lia). cbn in E. lia.
    - pose proof (be_dec_pos a Ha Na Xa). pose proof (zlen_nonneg Z a).
      assert (zlen a <> 0) by (intros Z0; apply Xa, zlen_zero_nil, Z0).
      assert (0 < 256 ^ (zlen a - 1)) by (apply Z.pow_pos_nonneg; lia). cbn in E. lia.
    - pose proof (be_dec_pos a Ha Na Xa). pose proof (be_dec_pos b Hb Nb Xb).
      pose proof (be_dec_bound a Ha). pose proof (be_dec_bound b Hb).
      destruct (Z.lt_trichotomy (zlen a) (zlen b)) as [L|[L|L]]; auto; exfalso.
      + assert (256 ^ zlen a <= 256 ^ (zlen b - 1)) by (apply Z.pow_le_mono_r; lia). lia.
      + assert (256 ^ zlen b <= 256 ^ (zlen a - 1)) by (apply Z.pow_le_mono_r; lia). lia. }
  rewrite <- (be_enc_dec a Ha), <- (be_enc_dec b Hb), E. f_equal. unfold zlen in HL. lia.
Qed.

Lemma mpint_body_minimal : forall v, is_bytes v -> minimal_mpint (be_dec v) (mpint_body v).
Proof.
  intros v H. unfold minimal_mpint. destruct (strip0_spec v) as (k & Ek & Hn).
  pose proof (strip0_bytes v H) as Hb.
  splits.
  - now apply mpint_body_bytes.
  - unfold mpint_body. rewrite <- (be_dec_strip0 v). destruct (msb (strip0 v)); reflexivity.
  - intros Z0. unfold mpint_body.
    assert (strip0 v = []) as ->; [|reflexivity].
    apply stripped_unique; auto; [constructor|discriminate|]. now rewrite be_dec_strip0.
  - intros b r. unfold mpint_body. destruct (strip0 v) as [|c s] eqn:E; cbn [msb]; [discriminate|].
    destruct (128 <=? c) eqn:Ec; intros X; inversion X; subst; lia.
  - intros r. unfold mpint_body. destruct (strip0 v) as [|c s] eqn:E; cbn [msb]; [discriminate|].
    destruct (128 <=? c) eqn:Ec; intros X; inversion X; subst.
    + exists c, s. split; [reflexivity|lia].
    + exfalso. apply (Hn r). reflexivity.
Qed.

Lemma mpint_body_unique : forall v v', is_bytes v -> is_bytes v' -> be_dec v = be_dec v' ->
  mpint_body v = mpint_body v'.
Proof.
  intros v v' H H' E. unfold mpint_body.
  replace (strip0 v') with (strip0 v); [reflexivity|].
  destruct (strip0_spec v) as (k & _ & Hn). destruct (strip0_spec v') as (k' & _ & Hn').
  apply stripped_unique; auto using strip0_bytes. now rewrite !be_dec_strip0.
Qed.

Lemma put_bignum_step : forall b v b', wf b -> is_bytes v -> zlen v <= SIZE_MAX ->
  do_op (OPutBignum true v) b = Ret (ROk VUnit) b' ->
  contents b' = contents b ++ enc_string (mpint_body v).
Proof.
  intros b v b' H Hb Hl E.
  destruct (step_ok (OPutBignum true v) b H (conj Hb Hl) I) as (r & b1 & E1 & W & Q).
  rewrite E in E1. inversion E1; subst. cbn [qstep] in Q.
  destruct (_ <? zlen v); [destruct Q; discriminate|].
  unfold appended in Q. destruct (_ && _).
  - destruct Q as [[_ Q]|(Q & _)]; [|discriminate]. apply (f_equal q) in Q. exact Q.
  - destruct Q as [[Q|[_ Q]] _]; discriminate.
Qed.

(** ** Totality of the readers *)
Lemma get_total : forall b o, wf b -> is_get o ->
  (exists x b', do_op o b = Ret (ROk x) b' /\ read_as o x (contents b) (contents b')) \/
  (exists e b', do_op o b = Ret (RErr e) b' /\ contents b' = contents b).
Proof.
  intros b o H Hg.
  assert (Ho : op_ok o) by (destruct o; cbn in *; try tauto).
  assert (Hr : reset_safe o b) by (destruct o; cbn in *; try tauto; exact I).
  pose proof (contents_bytes b H) as Hc.
  destruct (step_ok o b H Ho Hr) as (r & b' & E & W & Q).
  destruct o; cbn [is_get] in Hg; try contradiction; cbn [qstep] in Q; unfold decoded in Q; cbn [queue_of q] in Q.
  - destruct (Z.of_nat w <=? zlen (contents b)) eqn:El; destruct Q as [-> Q]; apply (f_equal q) in Q; cbn in Q.
    + left. eexists _, _. split; [exact E|]. cbn [read_as].
      pose proof (is_bytes_ztake (Z.of_nat w) _ Hc) as Ht.
      pose proof (be_dec_bound _ Ht) as HB. rewrite zlen_ztake in HB by lia.
      split; [assumption|]. rewrite Q, be_dec_enc_bytes; auto.
      * now rewrite ztake_zdrop.
      * rewrite zlen_ztake; lia.
    + right. eauto.
  - destruct aok; [|contradiction].
    destruct (dec_string (contents b)) as [[v rest]|e] eqn:D; destruct Q as [-> Q]; apply (f_equal q) in Q; cbn in Q.
    + left. eexists _, _. split; [exact E|]. cbn [read_as]. rewrite Q, app_assoc. now apply dec_string_enc.
    + right. eauto.
  - destruct aok; [|contradiction]. unfold dec_cstring in Q.
    destruct (dec_string (contents b)) as [[v rest]|e] eqn:D.
    + destruct (nul_ok v); destruct Q as [-> Q]; apply (f_equal q) in Q; cbn in Q.
      * left. eexists _, _. split; [exact E|]. cbn [read_as]. rewrite Q, app_assoc. now apply dec_string_enc.
      * right. eauto.
    + destruct Q as [-> Q]; apply (f_equal q) in Q; cbn in Q. right. eauto.
  - unfold dec_mpint in Q.
    destruct (dec_string (contents b)) as [[v rest]|e] eqn:D.
    + destruct (msb v). { destruct Q as [-> Q]; apply (f_equal q) in Q; cbn in Q. right. eauto. }
      destruct (_ || _); destruct Q as [-> Q]; apply (f_equal q) in Q; cbn in Q.
      * right. eauto.
      * left. eexists _, _. split; [exact E|]. cbn [read_as].
        destruct (strip0_spec v) as (k & Ek & Hn). split; [|assumption]. exists k.
        apply dec_string_enc in D; [|assumption]. rewrite D, Q. unfold enc_string.
        rewrite <- app_assoc. f_equal.
        { f_equal. rewrite Ek at 1. rewrite zlen_app, zlen_repeat. reflexivity. }
        rewrite app_assoc. now rewrite <- Ek.
    + destruct Q as [-> Q]; apply (f_equal q) in Q; cbn in Q. right. eauto.
Qed.

(** ** C strings *)
Lemma cstr_no_nul : forall v, ~ In 0 (cstr v).
Proof.
  induction v as [|b v IH]; cbn; [tauto|]. destruct (b =? 0) eqn:E; cbn; [tauto|].
  intros [->|H]; [discriminate|tauto].
Qed.
Lemma find_nul_range : forall v z, find_nul v = Some z ->
  0 <= z < zlen v /\ v = cstr v ++ 0 :: zdrop (z + 1) v /\ zlen (cstr v) = z.
Proof.
  induction v as [|b v IH]; cbn [find_nul]; [discriminate|]. intros z H. rewrite zlen_cons.
  pose proof (zlen_nonneg Z v). cbn [cstr].
  destruct (b =? 0) eqn:E.
  - inversion H; subst. splits; try lia; [|reflexivity]. replace b with 0 by lia. reflexivity.
  - destruct (find_nul v) as [y|]; [|discriminate]. inversion H; subst.
    destruct (IH y eq_refl) as (HR & HV & HL). splits; try lia.
    + rewrite HV at 1. cbn [app]. f_equal. f_equal. f_equal.
      unfold zdrop. replace (Z.to_nat (Z.succ y + 1)) with (S (Z.to_nat (y + 1))) by lia. reflexivity.
    + rewrite zlen_cons. lia.
Qed.
Lemma find_nul_not : forall v, find_nul v = None -> cstr v = v.
Proof.
  induction v as [|b v IH]; cbn; [reflexivity|]. destruct (b =? 0); [discriminate|].
  destruct (find_nul v); [discriminate|]. intros _. f_equal. now apply IH.
Qed.
Lemma nul_ok_spec : forall v, nul_ok v = true <-> (~ In 0 v \/ exists s, ~ In 0 s /\ v = s ++ [0]).
Proof.
  intros v. unfold nul_ok. destruct (find_nul v) as [z|] eqn:E.
  - destruct (find_nul_range v z E) as (HR & HV & HL). split.
    + intros Hz. right. exists (cstr v). split; [apply cstr_no_nul|].
      rewrite HV at 1. f_equal. f_equal. apply zdrop_all. lia.
    + intros [H|(s & Hs & Hv)].
      * exfalso. apply H. rewrite HV. apply in_or_app. right. left. reflexivity.
      * assert (cstr v = s).
        { rewrite Hv. clear - Hs. induction s as [|b s IH]; [reflexivity|]. cbn [app cstr].
          destruct (b =? 0) eqn:E; [exfalso; apply Hs; left; lia|]. f_equal. apply IH. intros H; apply Hs; now right. }
        rewrite Hv, zlen_app. subst s. rewrite <- HL. change (zlen [0]) with 1. lia.
  - split; [|reflexivity]. intros _. left. intros H. rewrite <- (find_nul_not v E) in H. now apply cstr_no_nul in H.
Qed.
Lemma get_cstring_spec : forall b, wf b ->
  match dec_string (contents b) with
  | ROk (v, rest) =>
      if nul_ok v then exists b', do_op (OGetCstring true) b = Ret (ROk (VBytes v)) b' /\ contents b' = rest
      else exists b', do_op (OGetCstring true) b = Ret (RErr SSH_ERR_INVALID_FORMAT) b' /\ contents b' = contents b
  | RErr e => exists b', do_op (OGetCstring true) b = Ret (RErr e) b' /\ contents b' = contents b
  end.
Proof.
  intros b H. destruct (step_ok (OGetCstring true) b H I I) as (r & b' & E & W & Q).
  cbn [qstep] in Q. unfold decoded, dec_cstring in Q. cbn [queue_of q] in Q.
  destruct (dec_string (contents b)) as [[v rest]|e].
  - destruct (nul_ok v); destruct Q as [-> Q]; apply (f_equal q) in Q; eauto.
  - destruct Q as [-> Q]; apply (f_equal q) in Q; eauto.
Qed.

Lemma get_mpint_spec : forall b, wf b ->
  match dec_mpint (contents b) with
  | ROk (v, rest) => exists b', do_op OGetBignum b = Ret (ROk (VBytes v)) b' /\ contents b' = rest
  | RErr e => exists b', do_op OGetBignum b = Ret (RErr e) b' /\ contents b' = contents b
  end.
Proof.
  intros b H. destruct (step_ok OGetBignum b H I I) as (r & b' & E & W & Q).
  cbn [qstep] in Q. unfold decoded in Q. cbn [queue_of q] in Q.
  destruct (dec_mpint (contents b)) as [[v rest]|e]; destruct Q as [-> Q]; apply (f_equal q) in Q; eauto.
Qed.

(** ** The signed authentication request *)
Lemma userauth_fields : forall sid us sv alg blob hk,
  userauth_ops sid us sv alg blob hk =
  map put_op ([WStr sid; WInt 1 50; WStr us; WStr sv; WStr (method_name (is_some hk)); WInt 1 1; WStr alg; WStr blob]
              ++ match hk with Some h => [WStr h] | None => [] end).
Proof. intros. destruct hk; reflexivity. Qed.

