(** Proofs about addresses. *)
From Coq Require Import String.
From Verif Require Import Base Text Bits MatchModel MatchSpec MatchProof MiscNumModel MiscNumSpec MiscNumProof AddrModel AddrSpec.

Notation W32 := 4294967296.
Lemma W32_pow : W32 = 2 ^ 32. Proof. reflexivity. Qed.

Lemma fam_eqb_eq : forall a b, fam_eqb a b = true <-> a = b.
Proof. intros [] []; cbn; split; congruence. Qed.
Lemma fam_eqb_refl : forall a, fam_eqb a a = true.
Proof. now intros []. Qed.

Lemma wf_words : forall a, wf a -> exists w0 w1 w2 w3, x_words a = [w0; w1; w2; w3] /\
  0 <= w0 < W32 /\ 0 <= w1 < W32 /\ 0 <= w2 < W32 /\ 0 <= w3 < W32.
Proof.
  intros a [Hl Hf]. destruct (x_words a) as [|w0 [|w1 [|w2 [|w3 [|w4 r]]]]]; try discriminate Hl.
  exists w0, w1, w2, w3. split; [reflexivity|]. rewrite Forall_forall in Hf. cbn [In] in Hf. splits; apply Hf; auto.
Qed.
Lemma wval4 : forall w0 w1 w2 w3, word_value [w0; w1; w2; w3] = ((w0 * 2 ^ 32 + w1) * 2 ^ 32 + w2) * 2 ^ 32 + w3.
Proof. intros. unfold word_value. cbn [fold_left]. rewrite <- W32_pow. lia. Qed.
Lemma value_bound : forall a, wf a -> 0 <= value a < 2 ^ width (x_af a).
Proof.
  intros a H. destruct (wf_words a H) as (w0 & w1 & w2 & w3 & E & H0 & H1 & H2 & H3). unfold value, width. rewrite E. destruct (x_af a).
  - cbn [hd]. lia.
  - rewrite wval4. change (2 ^ 32) with W32. change (2 ^ 128) with (W32 * W32 * W32 * W32). nia.
Qed.

(** Word-wise operations act on the integer. *)
Section WordOp.
  Variable op : Z -> Z -> Z.
  Hypothesis op_cat : forall a b c d k, 0 <= k -> 0 <= b < 2 ^ k -> 0 <= d < 2 ^ k ->
    op (a * 2 ^ k + b) (c * 2 ^ k + d) = op a c * 2 ^ k + op b d.
  Hypothesis op_small : forall a b, 0 <= a < 2 ^ 32 -> 0 <= b < 2 ^ 32 -> 0 <= op a b < 2 ^ 32.
  Lemma on_words_value : forall af s a b, wf a -> wf b -> x_af a = af -> x_af b = af ->
    wf (mkX af (on_words op af (x_words a) (x_words b)) s) /\
    value (mkX af (on_words op af (x_words a) (x_words b)) s) = op (value a) (value b).
  Proof.
    intros af s a b Ha Hb Ea Eb. destruct (wf_words a Ha) as (a0 & a1 & a2 & a3 & E & A0 & A1 & A2 & A3).
    destruct (wf_words b Hb) as (b0 & b1 & b2 & b3 & F & B0 & B1 & B2 & B3). rewrite W32_pow in *.
    unfold value, wf. cbn [x_af x_words]. rewrite Ea, Eb, E, F. destruct af; cbn [on_words map2 hd length].
    - split; [|reflexivity]. split; [reflexivity|]. repeat (constructor; [first [apply op_small; assumption|assumption]|]). constructor.
    - split.
      + split; [reflexivity|]. repeat (constructor; [apply op_small; assumption|]). constructor.
      + rewrite !wval4. rewrite !op_cat by (assumption || lia). reflexivity.
  Qed.
End WordOp.
Lemma and_value : forall a b, wf a -> wf b -> x_af a = x_af b ->
  exists r, addr_and a b = Some r /\ x_af r = x_af a /\ x_scope r = x_scope a /\ wf r /\ value r = Z.land (value a) (value b).
Proof.
  intros a b Ha Hb E. unfold addr_and. rewrite E, fam_eqb_refl. cbn [negb]. eexists. split; [reflexivity|]. cbn [x_af x_scope]. splits; auto;
  eapply (on_words_value Z.land); auto; try (intros; apply land_cat; assumption); intros; apply land_small; lia.
Qed.
Lemma or_value : forall a b, wf a -> wf b -> x_af a = x_af b ->
  exists r, addr_or a b = Some r /\ x_af r = x_af a /\ x_scope r = x_scope a /\ wf r /\ value r = Z.lor (value a) (value b).
Proof.
  intros a b Ha Hb E. unfold addr_or. rewrite E, fam_eqb_refl. cbn [negb]. eexists. split; [reflexivity|]. cbn [x_af x_scope]. splits; auto;
  eapply (on_words_value Z.lor); auto; try (intros; apply lor_cat; assumption); intros; apply lor_small; lia.
Qed.
Lemma and_af : forall a b, x_af a <> x_af b -> addr_and a b = None.
Proof. intros a b H. unfold addr_and. destruct (fam_eqb _ _) eqn:E; [apply fam_eqb_eq in E; congruence|reflexivity]. Qed.

Lemma inv32_eq : forall w, 0 <= w < W32 -> inv32 w = W32 - 1 - w.
Proof.
  intros w H. unfold inv32, u32, U32. rewrite <- (Z.lnot_involutive w) at 2. replace (Z.lnot (Z.lnot w)) with (- Z.lnot w - 1) by (unfold Z.lnot; lia).
  replace (W32 - 1 - (- Z.lnot w - 1)) with (W32 + Z.lnot w) by lia.
  replace (Z.lnot w) with (W32 + Z.lnot w + (-1) * W32) at 1 by lia. rewrite Z.mod_add by lia. apply Z.mod_small. unfold Z.lnot. lia.
Qed.
Lemma invert_value : forall a, wf a -> x_af (addr_invert a) = x_af a /\ wf (addr_invert a) /\
  value (addr_invert a) = 2 ^ width (x_af a) - 1 - value a.
Proof.
  intros a Ha. destruct (wf_words a Ha) as (a0 & a1 & a2 & a3 & E & A0 & A1 & A2 & A3). unfold addr_invert.
  pose proof (inv32_eq a0 A0). pose proof (inv32_eq a1 A1). pose proof (inv32_eq a2 A2). pose proof (inv32_eq a3 A3).
  unfold value, wf, width. destruct (x_af a); cbn [x_af x_words]; rewrite E; cbn [map hd length].
  - splits; [reflexivity|reflexivity|repeat (constructor; [lia|]); constructor|]. change (2 ^ 32) with W32. lia.
  - splits; [reflexivity|reflexivity|repeat (constructor; [lia|]); constructor|]. rewrite !wval4. change (2 ^ 32) with W32. change (2 ^ 128) with (W32 * W32 * W32 * W32). nia.
Qed.

(** Every mask, by computation over the 33 and 129 lengths. *)
Definition mask_ok (af : family) (n : nat) : bool :=
  let l := Z.of_nat n in
  match addr_netmask af l with
  | Some m => fam_eqb (x_af m) af && (value m =? 2 ^ width af - 2 ^ (width af - l)) && (length (x_words m) =? 4)%nat &&
              forallb (fun w => (0 <=? w) && (w <? W32)) (x_words m)
  | None => false
  end.
Lemma mask4_all : forallb (mask_ok INET) (seq 0 33) = true.
Proof. vm_compute. reflexivity. Qed.
Lemma mask6_all : forallb (mask_ok INET6) (seq 0 129) = true.
Proof. vm_compute. reflexivity. Qed.
Lemma netmask_value : forall af l, 0 <= l <= width af ->
  exists m, addr_netmask af l = Some m /\ x_af m = af /\ wf m /\ value m = 2 ^ width af - 2 ^ (width af - l).
Proof.
  intros af l H.
  assert (M : mask_ok af (Z.to_nat l) = true).
  { destruct af; cbn [width] in H.
    - pose proof mask4_all as A. rewrite forallb_forall in A. apply A. apply in_seq. lia.
    - pose proof mask6_all as A. rewrite forallb_forall in A. apply A. apply in_seq. lia. }
  unfold mask_ok in M. rewrite Z2Nat.id in M by lia. destruct (addr_netmask af l) as [m|]; [|discriminate].
  apply andb_prop in M. destruct M as [M M4]. apply andb_prop in M. destruct M as [M M3]. apply andb_prop in M. destruct M as [M1 M2].
  exists m. splits; auto; [now apply fam_eqb_eq| |lia]. split; [now apply Nat.eqb_eq|]. apply Forall_forall. intros w Hw.
  rewrite forallb_forall in M4. specialize (M4 w Hw). lia.
Qed.
Lemma netmask_none : forall af l, width af < l -> addr_netmask af l = None.
Proof.
  intros af l H. unfold addr_netmask, masklen_valid. destruct af; cbn [width] in H.
  - replace (l <=? 32) with false by lia. reflexivity.
  - replace (l <=? 128) with false by lia. reflexivity.
Qed.
Lemma hostmask_value : forall af l, 0 <= l <= width af ->
  exists m, addr_hostmask af l = Some m /\ x_af m = af /\ wf m /\ value m = 2 ^ (width af - l) - 1.
Proof.
  intros af l H. destruct (netmask_value af l H) as (m & E & Ea & Hw & Hv). unfold addr_hostmask. rewrite E. cbn [option_map].
  destruct (invert_value m Hw) as (I1 & I2 & I3). exists (addr_invert m). splits; auto; [congruence|]. rewrite I3, Ea, Hv. lia.
Qed.

(** Comparison. *)
Lemma be_acc_lin : forall l acc, be_acc acc l = acc * 256 ^ zlen l + be_dec l.
Proof.
  induction l as [|b l IH]; intros acc; [cbn [be_acc]; rewrite zlen_nil; unfold be_dec; cbn [be_acc]; change (256 ^ 0) with 1; lia|].
  unfold be_dec. cbn [be_acc]. rewrite IH. rewrite (IH (0 * 256 + b)). rewrite zlen_cons, Z.pow_add_r by (pose proof (zlen_nonneg Z l); lia).
  change (256 ^ 1) with 256. ring.
Qed.
Lemma byte_diff_sign : forall a b, is_bytes a -> is_bytes b -> length a = length b ->
  Z.sgn (byte_diff a b) = Z.sgn (be_dec a - be_dec b) /\ (byte_diff a b = 0 -> a = b).
Proof.
  induction a as [|x a IH]; intros [|y b] Ha Hb Hl; try discriminate Hl; [split; reflexivity|].
  inversion Ha; subst. inversion Hb; subst. injection Hl as Hl. destruct (IH b) as [I1 I2]; try assumption.
  assert (E : forall z l, be_dec (z :: l) = z * 256 ^ zlen l + be_dec l).
  { intros z l. unfold be_dec at 1. cbn [be_acc]. rewrite be_acc_lin. f_equal. }
  rewrite !E. assert (Hz : zlen a = zlen b) by (unfold zlen; lia). rewrite <- Hz. cbn [byte_diff].
  pose proof (be_dec_bound a ltac:(assumption)). pose proof (be_dec_bound b ltac:(assumption)). rewrite <- Hz in *.
  assert (0 < 256 ^ zlen a) by (apply Z.pow_pos_nonneg; [lia|apply zlen_nonneg]).
  destruct (x - y =? 0) eqn:Ex.
  - assert (x = y) by lia. subst y. split; [rewrite I1; f_equal; lia|]. intros. f_equal. now apply I2.
  - split; [|lia]. destruct (Z_lt_le_dec x y).
    + rewrite Z.sgn_neg by lia. rewrite Z.sgn_neg by nia. reflexivity.
    + rewrite Z.sgn_pos by lia. rewrite Z.sgn_pos by nia. reflexivity.
Qed.
Lemma addr8_value : forall ws, Forall (fun w => 0 <= w < W32) ws -> be_dec (flat_map (be_enc 4) ws) = word_value ws.
Proof.
  intros ws H. unfold be_dec, word_value. generalize 0 at 1 2. revert H. induction ws as [|w ws IH]; intros H acc; [reflexivity|].
  inversion H; subst. cbn [flat_map fold_left]. rewrite be_acc_app, (be_acc_lin (be_enc 4 w)), be_dec_enc_id by (change (256 ^ Z.of_nat 4) with W32; assumption).
  rewrite zlen_be_enc. change (256 ^ Z.of_nat 4) with W32. now apply IH.
Qed.
Lemma addr8_bytes : forall ws, is_bytes (flat_map (be_enc 4) ws) /\ length (flat_map (be_enc 4) ws) = (4 * length ws)%nat.
Proof.
  induction ws as [|w ws [I1 I2]]; [split; [constructor|reflexivity]|]. cbn [flat_map]. split.
  - apply is_bytes_app. split; [apply be_enc_bytes|assumption].
  - rewrite app_length, be_enc_length, I2. cbn [length]. lia.
Qed.
(** The scope that takes part in comparisons. *)
Definition cmp_scope (a : xaddr) : Z := match x_af a with INET => 0 | INET6 => x_scope a end.
Lemma cmp_sign : forall a b, wf a -> wf b -> x_af a = x_af b ->
  Z.sgn (addr_cmp a b) = if value a =? value b then Z.sgn (cmp_scope a - cmp_scope b) else Z.sgn (value a - value b).
Proof.
  intros a b Ha Hb E. unfold addr_cmp. rewrite E, fam_eqb_refl. cbn [negb]. unfold value, cmp_scope. rewrite E. destruct (x_af b).
  - cbv zeta. destruct (_ =? _) eqn:E1; [reflexivity|]. destruct (_ <? _) eqn:E2; [rewrite (Z.sgn_pos (_ - _)) by lia|rewrite (Z.sgn_neg (_ - _)) by lia]; reflexivity.
  - cbv zeta. destruct Ha as [La Fa], Hb as [Lb Fb]. unfold addr8.
    destruct (addr8_bytes (x_words a)) as [Ba Na]. destruct (addr8_bytes (x_words b)) as [Bb Nb].
    destruct (byte_diff_sign (flat_map (be_enc 4) (x_words a)) (flat_map (be_enc 4) (x_words b))) as [S1 S2]; [assumption|assumption|lia|].
    rewrite !addr8_value in S1 by assumption. destruct (byte_diff _ _ =? 0) eqn:D.
    + apply Z.eqb_eq in D. rewrite D in S1. symmetry in S1. change (Z.sgn 0) with 0 in S1. apply Z.sgn_null_iff in S1. replace (word_value (x_words a) =? word_value (x_words b)) with true by lia.
      destruct (_ =? _) eqn:E1; [rewrite (Z.sgn_null (_ - _)) by lia; reflexivity|]. destruct (_ <? _) eqn:E2; [rewrite (Z.sgn_pos (_ - _)) by lia|rewrite (Z.sgn_neg (_ - _)) by lia]; reflexivity.
    + destruct (word_value (x_words a) =? word_value (x_words b)) eqn:V; [|assumption].
      replace (word_value (x_words a) - word_value (x_words b)) with 0 in S1 by lia. cbn [Z.sgn] in S1. apply Z.sgn_null_iff in S1. lia.
Qed.
Lemma cmp_zero : forall a b, wf a -> wf b -> (addr_cmp a b = 0 <-> x_af a = x_af b /\ value a = value b /\ same_scope a b).
Proof.
  intros a b Ha Hb. destruct (fam_eqb (x_af a) (x_af b)) eqn:E.
  - apply fam_eqb_eq in E. pose proof (cmp_sign a b Ha Hb E) as S. rewrite <- Z.sgn_null_iff, S. unfold cmp_scope, same_scope. rewrite <- E.
    destruct (value a =? value b) eqn:V; rewrite Z.sgn_null_iff; destruct (x_af a).
    + split; [intros _; splits; [reflexivity|lia|discriminate]|lia].
    + split; [intros H; splits; [reflexivity|lia|lia]|]. intros (_ & _ & H). specialize (H eq_refl). lia.
    + split; [lia|]. intros (_ & H & _). lia.
    + split; [lia|]. intros (_ & H & _). lia.
  - split.
    + unfold addr_cmp. rewrite E. cbn [negb]. destruct (x_af a); discriminate.
    + intros [H _]. apply fam_eqb_eq in H. congruence.
Qed.

(** Matching a network. *)
Lemma netmatch_iff : forall host net l, wf host -> wf net -> 0 <= l -> consistent net l ->
  (addr_netmatch host net l = 0 <-> in_network host net l).
Proof.
  intros host net l Hh Hn Hl [Hw Hz]. unfold addr_netmatch, in_network. destruct (fam_eqb (x_af host) (x_af net)) eqn:E; cbn [negb].
  2:{ split; [discriminate|]. intros [H _]. apply fam_eqb_eq in H. congruence. }
  apply fam_eqb_eq in E. rewrite E. destruct (netmask_value (x_af net) l) as (m & Em & Ea & Hm & Hv); [lia|]. rewrite Em.
  destruct (and_value host m Hh Hm) as (r & Er & Ra & Rs & Rw & Rv); [congruence|]. rewrite Er. rewrite (cmp_zero r net Rw Hn).
  rewrite Ra, Rv, Hv. unfold leading, host_bits, same_scope in *. rewrite Ra, E, Rs.
  assert (P : 0 < 2 ^ (width (x_af net) - l)) by (apply Z.pow_pos_nonneg; lia).
  pose proof (value_bound host Hh) as Bh. rewrite E in Bh.
  rewrite land_high by lia. pose proof (Z.div_mod (value net) (2 ^ (width (x_af net) - l)) ltac:(lia)).
  split; intros (A1 & A2 & A3).
  - splits; auto. nia.
  - destruct A3 as [A3 A4]. splits; auto. rewrite A3. lia.
Qed.
Lemma netmatch_long : forall host net l, width (x_af net) < l -> addr_netmatch host net l <> 0.
Proof.
  intros host net l H. unfold addr_netmatch. destruct (fam_eqb (x_af host) (x_af net)) eqn:E; cbn [negb]; [|discriminate].
  apply fam_eqb_eq in E. rewrite E, netmask_none by assumption. discriminate.
Qed.
Lemma host_all0s : forall a l, wf a -> 0 <= l <= width (x_af a) -> (addr_host_is_all0s a l = true <-> host_bits a l = 0).
Proof.
  intros a l Ha Hl. unfold addr_host_is_all0s. destruct (hostmask_value (x_af a) l Hl) as (m & Em & Ea & Hm & Hv). rewrite Em.
  destruct (and_value a m Ha Hm) as (r & Er & Ra & Rs & Rw & Rv); [congruence|]. rewrite Er. unfold host_bits.
  assert (Z : addr_is_all0s r = true <-> value r = 0).
  { destruct (wf_words r Rw) as (w0 & w1 & w2 & w3 & E & B0 & B1 & B2 & B3). unfold addr_is_all0s, value. rewrite E. destruct (x_af r); cbn [hd].
    - lia.
    - rewrite wval4. change (2 ^ 32) with W32. cbn [forallb]. lia. }
  rewrite Z, Rv, Hv, land_low by lia. reflexivity.
Qed.
Lemma host_all1s : forall a l, wf a -> 0 <= l <= width (x_af a) ->
  exists e, addr_host_to_all1s a l = Some e /\ wf e /\ x_af e = x_af a /\ x_scope e = x_scope a /\
    value e = leading a l * 2 ^ (width (x_af a) - l) + (2 ^ (width (x_af a) - l) - 1).
Proof.
  intros a l Ha Hl. unfold addr_host_to_all1s. destruct (hostmask_value (x_af a) l Hl) as (m & Em & Ea & Hm & Hv). rewrite Em.
  destruct (or_value a m Ha Hm) as (r & Er & Ra & Rs & Rw & Rv); [congruence|]. exists r. splits; auto.
  rewrite Rv, Hv, lor_low by lia. reflexivity.
Qed.
Lemma increment_value : forall a, wf a -> let b := addr_increment a in
  wf b /\ x_af b = x_af a /\ x_scope b = x_scope a /\ value b = (value a + 1) mod 2 ^ width (x_af a).
Proof.
  intros a Ha b. destruct (wf_words a Ha) as (w0 & w1 & w2 & w3 & E & B0 & B1 & B2 & B3).
  assert (U : forall w, 0 <= w < W32 -> u32 (w + 1) = if w =? W32 - 1 then 0 else w + 1).
  { intros w Hw. unfold u32, U32. destruct (w =? W32 - 1) eqn:Ew; [assert (w = W32 - 1) by lia; subst w; reflexivity|apply Z.mod_small; lia]. }
  assert (UB : forall w, 0 <= u32 w < W32) by (intros; apply Z.mod_pos_bound; reflexivity).
  unfold b, addr_increment, value, wf, width. destruct (x_af a); cbn [x_af x_words x_scope]; rewrite E; cbn [rev app].
  - cbn [hd length]. splits; [reflexivity|repeat (constructor; [first [apply UB|assumption]|]); constructor|reflexivity|reflexivity|reflexivity].
  - cbn [incr_words]. rewrite !U by assumption.
    destruct (w3 =? W32 - 1) eqn:E3; [change (0 =? 0) with true; cbv iota zeta|replace (w3 + 1 =? 0) with false by lia; cbv iota zeta].
    2:{ cbn [rev app length]. splits; [reflexivity|repeat (constructor; [lia|]); constructor|reflexivity|reflexivity|]. rewrite !wval4. change (2 ^ 32) with W32. change (2 ^ 128) with (W32 * W32 * W32 * W32). rewrite Z.mod_small; [lia|nia]. }
    destruct (w2 =? W32 - 1) eqn:E2; [change (0 =? 0) with true; cbv iota zeta|replace (w2 + 1 =? 0) with false by lia; cbv iota zeta].
    2:{ cbn [rev app length]. splits; [reflexivity|repeat (constructor; [lia|]); constructor|reflexivity|reflexivity|]. rewrite !wval4. change (2 ^ 32) with W32. change (2 ^ 128) with (W32 * W32 * W32 * W32). rewrite Z.mod_small; [lia|nia]. }
    destruct (w1 =? W32 - 1) eqn:E1; [change (0 =? 0) with true; cbv iota zeta|replace (w1 + 1 =? 0) with false by lia; cbv iota zeta].
    2:{ cbn [rev app length]. splits; [reflexivity|repeat (constructor; [lia|]); constructor|reflexivity|reflexivity|]. rewrite !wval4. change (2 ^ 32) with W32. change (2 ^ 128) with (W32 * W32 * W32 * W32). rewrite Z.mod_small; [lia|nia]. }
    destruct (w0 =? W32 - 1) eqn:E0; [change (0 =? 0) with true; cbv iota zeta|replace (w0 + 1 =? 0) with false by lia; cbv iota zeta].
    2:{ cbn [rev app length]. splits; [reflexivity|repeat (constructor; [lia|]); constructor|reflexivity|reflexivity|]. rewrite !wval4. change (2 ^ 32) with W32. change (2 ^ 128) with (W32 * W32 * W32 * W32). rewrite Z.mod_small; [lia|nia]. }
    assert (w0 = W32 - 1) by lia. assert (w1 = W32 - 1) by lia. assert (w2 = W32 - 1) by lia. assert (w3 = W32 - 1) by lia. subst. cbn [rev app length].
    splits; [reflexivity|repeat (constructor; [lia|]); constructor|reflexivity|reflexivity|reflexivity].
Qed.

(** Reading CIDR texts. *)
Lemma strchr_cut_spec : forall c t, match strchr_cut c t with None => ~ In c t | Some (a, b) => t = a ++ c :: b /\ ~ In c a end.
Proof.
  intros c t. induction t as [|x t IH]; cbn [strchr_cut]; [intros []|]. destruct (x =? c) eqn:E.
  - assert (x = c) by lia. subst. split; [reflexivity|intros []].
  - destruct (strchr_cut c t) as [[a b]|].
    + destruct IH as [-> IH]. split; [reflexivity|]. intros [Hi|Hi]; [lia|auto].
    + intros [Hi|Hi]; [lia|auto].
Qed.
Lemma cut_fun : forall c (a b a' b' : list Z), a ++ c :: b = a' ++ c :: b' -> ~ In c a -> ~ In c a' -> a = a' /\ b = b'.
Proof.
  intros c a. induction a as [|x a IH]; intros b [|y a'] b' H Ha Ha'; cbn [app] in H.
  - inversion H. auto.
  - inversion H; subst. exfalso. apply Ha'. now left.
  - inversion H; subst. exfalso. apply Ha. now left.
  - inversion H; subst. destruct (IH b a' b') as [-> ->]; auto; intros Hi; [apply Ha|apply Ha']; now right.
Qed.
Lemma reads_fun : forall pton p a l a' l', reads pton p a l -> reads pton p a' l' -> a = a' /\ l = l'.
Proof.
  intros pton p a l a' l' (_ & H) (_ & H'). destruct H as [(N & E & ->)|(t & m & Ep & N & E & Hn & Hr)], H' as [(N' & E' & ->)|(t' & m' & Ep' & N' & E' & Hn' & Hr')].
  - rewrite E in E'. injection E' as ->. auto.
  - exfalso. apply N. rewrite Ep'. apply in_or_app. right. now left.
  - exfalso. apply N'. rewrite Ep. apply in_or_app. right. now left.
  - rewrite Ep in Ep'. apply cut_fun in Ep'; try assumption. destruct Ep' as [-> ->]. rewrite E in E'. injection E' as ->.
    split; [reflexivity|]. eapply numeral_fun; eassumption.
Qed.
Definition pton_ok (pton : list Z -> option xaddr) : Prop := forall s a, pton s = Some a -> wf a.
Lemma cidr_check_spec : forall a l, wf a -> 0 <= l -> cidr_check a l = if masklen_valid (x_af a) l && addr_host_is_all0s a l then CidrOk a l else CidrInconsistent.
Proof. intros a l _ _. unfold cidr_check. destruct (masklen_valid _ _); [|reflexivity]. destruct (addr_host_is_all0s _ _); reflexivity. Qed.
Lemma consistent_iff : forall a l, wf a -> 0 <= l -> (masklen_valid (x_af a) l && addr_host_is_all0s a l = true <-> consistent a l).
Proof.
  intros a l Ha Hl. unfold consistent.
  assert (M : masklen_valid (x_af a) l = true <-> l <= width (x_af a)) by (unfold masklen_valid, width; destruct (x_af a); lia).
  destruct (masklen_valid (x_af a) l) eqn:E.
  - assert (l <= width (x_af a)) by now apply M. cbn [andb]. rewrite (host_all0s a l Ha) by lia. tauto.
  - cbn [andb]. split; [discriminate|]. intros [H _]. apply M in H. discriminate.
Qed.
Lemma cidr_spec : forall pton p, pton_ok pton ->
  match addr_pton_cidr pton p with
  | CidrOk a l => reads pton p a l /\ consistent a l /\ wf a /\ 0 <= l
  | CidrInconsistent => exists a l, reads pton p a l /\ ~ consistent a l
  | CidrParse => forall a l, ~ reads pton p a l
  end.
Proof.
  intros pton p Hp. unfold addr_pton_cidr, reads. destruct (64 <=? zlen p) eqn:E64; [intros a l [H _]; lia|].
  assert (G : forall a l, wf a -> 0 <= l -> match cidr_check a l with
     | CidrOk a' l' => a' = a /\ l' = l /\ consistent a l
     | CidrInconsistent => ~ consistent a l | CidrParse => False end).
  { intros a l Ha Hl. rewrite cidr_check_spec by assumption. pose proof (consistent_iff a l Ha Hl) as C. destruct (_ && _); [splits; tauto|].
    intros H. apply C in H. discriminate. }
  pose proof (strchr_cut_spec 47 p) as S. destruct (strchr_cut 47 p) as [[t m]|].
  - destruct S as [-> Ht]. assert (LL : LLONG_MIN <= 0 /\ INT_MAX <= LLONG_MAX /\ 0 <= INT_MAX) by (unfold LLONG_MIN, LLONG_MAX, INT_MAX; lia).
    destruct (strtonum m 0 INT_MAX) as [v|e] eqn:En.
    + apply strtonum_ok in En; [|lia|lia]. destruct En as [Hn Hr]. destruct (pton t) as [x|] eqn:Ex.
      * specialize (G x v (Hp _ _ Ex) ltac:(lia)). destruct (cidr_check x v) as [a l| |]; [|destruct G|].
        -- destruct G as (-> & -> & G). splits; auto; [lia| |eapply Hp; eassumption|lia]. right. exists t, m. splits; auto; unfold INT_MAX in *; lia.
        -- exists x, v. split; [|assumption]. split; [lia|]. right. exists t, m. splits; auto; unfold INT_MAX in *; lia.
      * intros a l [_ [(N & _)|(t' & m' & E & N & E2 & _)]]; [apply N; apply in_or_app; right; now left|].
        apply cut_fun in E; try assumption. destruct E as [<- <-]. congruence.
    + intros a l [_ [(N & _)|(t' & m' & E & N & E2 & Hn & Hr)]]; [apply N; apply in_or_app; right; now left|].
      apply cut_fun in E; try assumption. destruct E as [<- <-].
      rewrite (proj2 (strtonum_ok m 0 INT_MAX l ltac:(lia) ltac:(lia))) in En; [discriminate|]. split; [assumption|unfold INT_MAX; lia].
  - destruct (pton p) as [x|] eqn:Ex.
    + assert (Hu : addr_unicast_masklen (x_af x) = width (x_af x)) by (destruct (x_af x); reflexivity). rewrite Hu.
      specialize (G x (width (x_af x)) (Hp _ _ Ex) ltac:(destruct (x_af x); cbn; lia)). destruct (cidr_check x (width (x_af x))) as [a l| |]; [|destruct G|].
      * destruct G as (-> & -> & G). splits; auto; [lia|eapply Hp; eassumption|destruct (x_af x); cbn; lia].
      * exists x, (width (x_af x)). split; [|assumption]. split; [lia|]. left. auto.
    + intros a l [_ [(_ & E & _)|(t' & m' & E & _)]]; [congruence|]. apply S. rewrite E. apply in_or_app. right. now left.
Qed.

(** Address lists. *)
Lemma entry_hits_spec : forall pton t x cp, pton_ok pton -> wf x ->
  match entry_hits pton (Some (t, x)) cp with
  | None => exists a l, reads pton cp a l /\ ~ consistent a l
  | Some b => (forall a l, reads pton cp a l -> consistent a l) /\
              (b = true <-> (exists a l, reads pton cp a l /\ consistent a l /\ in_network x a l) \/ ((forall a l, ~ reads pton cp a l) /\ glob cp t))
  end.
Proof.
  intros pton t x cp Hp Hx. unfold entry_hits. pose proof (cidr_spec pton cp Hp) as C. destruct (addr_pton_cidr pton cp) as [a l| |]; [| |exact C].
  - destruct C as (Hr & Hc & Ha & Hl). split; [intros a' l' H; destruct (reads_fun _ _ _ _ _ _ Hr H); subst; assumption|].
    pose proof (netmatch_iff x a l Hx Ha Hl Hc) as N. split.
    + intros H. left. exists a, l. splits; auto. apply N. lia.
    + intros [(a' & l' & H & _ & Hi)|[H _]]; [|destruct (H _ _ Hr)]. destruct (reads_fun _ _ _ _ _ _ Hr H); subst. apply N in Hi. lia.
  - split; [intros a l H; destruct (C a l H)|]. rewrite match_pattern_glob. split; [auto|]. intros [(a & l & H & _)|[_ H]]; [destruct (C a l H)|assumption].
Qed.

(** The value of the loop, by cases on the remaining entries. *)
Definition hits (pton : list Z -> option xaddr) (t : list Z) (x : xaddr) (e : list Z) : Prop := entry_matches pton t x e.
Lemma entry_step : forall pton t x e r ret, pton_ok pton -> wf x ->
  (invalid_entry pton e /\ aml_loop pton (e :: r) (Some (t, x)) ret = -2) \/
  (~ invalid_entry pton e /\ entry_matches pton t x e /\ negative e = true /\ aml_loop pton (e :: r) (Some (t, x)) ret = -1) \/
  (~ invalid_entry pton e /\ entry_matches pton t x e /\ negative e = false /\ aml_loop pton (e :: r) (Some (t, x)) ret = aml_loop pton r (Some (t, x)) 1) \/
  (~ invalid_entry pton e /\ ~ entry_matches pton t x e /\ aml_loop pton (e :: r) (Some (t, x)) ret = aml_loop pton r (Some (t, x)) ret).
Proof.
  intros pton t x e r ret Hp Hx. cbn [aml_loop]. fold (negative e). change (match e with c :: _ => c =? BANG | [] => false end) with (negative e). fold (body e).
  unfold invalid_entry, entry_matches. destruct (is_nil (body e)) eqn:En.
  { left. split; [|reflexivity]. left. destruct (body e); [reflexivity|discriminate]. }
  assert (Hb : body e <> []) by (destruct (body e); [discriminate|discriminate]).
  pose proof (entry_hits_spec pton t x (body e) Hp Hx) as S. destruct (entry_hits pton (Some (t, x)) (body e)) as [[|]|].
  - destruct S as [S1 S2]. assert (NI : ~ (body e = [] \/ (exists a l, reads pton (body e) a l /\ ~ consistent a l))).
    { intros [H|(a & l & H & N)]; [congruence|]. apply N. now apply S1. }
    destruct (negative e); [right; left|right; right; left]; splits; auto; now apply S2.
  - destruct S as [S1 S2]. right. right. right. splits; auto.
    + intros [H|(a & l & H & N)]; [congruence|]. apply N. now apply S1.
    + intros H. apply S2 in H. discriminate.
  - left. split; [right; exact S|reflexivity].
Qed.
Lemma aml_values : forall pton t x es ret, pton_ok pton -> wf x -> (ret = 0 \/ ret = 1) ->
  let v := aml_loop pton es (Some (t, x)) ret in
  (v = 1 <-> Forall (fun e => ~ invalid_entry pton e) es /\ (forall e, In e es -> negative e = true -> ~ entry_matches pton t x e) /\
             (ret = 1 \/ exists e, In e es /\ negative e = false /\ entry_matches pton t x e)) /\
  (v = -1 <-> exists pre e post, es = pre ++ e :: post /\ Forall (fun e => ~ invalid_entry pton e) (pre ++ [e]) /\ negative e = true /\ entry_matches pton t x e) /\
  (v = -2 <-> exists pre e post, es = pre ++ e :: post /\ invalid_entry pton e /\ forall d, In d pre -> negative d = true -> ~ entry_matches pton t x d) /\
  (v = 1 \/ v = 0 \/ v = -1 \/ v = -2).
Proof.
  intros pton t x es. induction es as [|e r IH]; intros ret Hp Hx Hret v.
  - unfold v. cbn [aml_loop]. splits.
    + split; [intros ->; split; [constructor|split; [intros e []|auto]]|]. intros (_ & _ & [H|(e & [] & _)]). assumption.
    + split; [lia|]. intros (pre & e & post & H & _). destruct pre; discriminate.
    + split; [lia|]. intros (pre & e & post & H & _). destruct pre; discriminate.
    + lia.
  - unfold v in *. clear v. destruct (entry_step pton t x e r ret Hp Hx) as [(I & ->)|[(I & M & N & ->)|[(I & M & N & ->)|(I & M & ->)]]].
    + splits; [| | |lia].
      * split; [lia|]. intros (F & _). inversion F; subst. contradiction.
      * split; [lia|]. intros (pre & e' & post & H & F & _). destruct pre as [|d pre]; inversion H; subst; inversion F; subst; contradiction.
      * split; [|lia]. intros _. exists [], e, r. splits; auto; intros d [].
    + splits; [| | |lia].
      * split; [lia|]. intros (_ & F & _). exfalso. apply (F e); auto. now left.
      * split; [|lia]. intros _. exists [], e, r. split; [reflexivity|]. split; [repeat constructor; assumption|auto].
      * split; [lia|]. intros (pre & e' & post & H & I' & F). destruct pre as [|d pre]; inversion H; subst; [contradiction|]. exfalso. apply (F d); auto. now left.
    + destruct (IH 1 Hp Hx ltac:(auto)) as (A & B & C & D). splits; [| | |exact D].
      * rewrite A. split.
        -- intros (F & G & _). splits; [constructor; assumption| |right; exists e; splits; auto; now left].
           intros d [<-|Hd] Nd; [congruence|]. now apply G.
        -- intros (F & G & _). inversion F; subst. splits; auto. intros d Hd Nd. apply G; [now right|assumption].
      * rewrite B. split.
        -- intros (pre & d & post & -> & F & Nd & Md). exists (e :: pre), d, post. splits; auto. cbn [app]. constructor; assumption.
        -- intros (pre & d & post & H & F & Nd & Md). destruct pre as [|d' pre]; inversion H; subst; [congruence|]. exists pre, d, post. splits; auto. inversion F; assumption.
      * rewrite C. split.
        -- intros (pre & d & post & -> & Id & F). exists (e :: pre), d, post. splits; auto. intros d' [<-|Hd] Nd; [congruence|]. now apply F.
        -- intros (pre & d & post & H & Id & F). destruct pre as [|d' pre]; inversion H; subst; [contradiction|]. exists pre, d, post. splits; auto. intros d'' Hd Nd. apply F; [now right|assumption].
    + destruct (IH ret Hp Hx Hret) as (A & B & C & D). splits; [| | |exact D].
      * rewrite A. split.
        -- intros (F & G & K). splits; [constructor; assumption| |].
           ++ intros d [<-|Hd] Nd; [assumption|]. now apply G.
           ++ destruct K as [K|(d & Hd & Nd & Md)]; [auto|]. right. exists d. splits; auto. now right.
        -- intros (F & G & K). inversion F; subst. splits; auto.
           ++ intros d Hd Nd. apply G; [now right|assumption].
           ++ destruct K as [K|(d & [<-|Hd] & Nd & Md)]; [auto|contradiction|]. right. eauto.
      * rewrite B. split.
        -- intros (pre & d & post & -> & F & Nd & Md). exists (e :: pre), d, post. splits; auto. cbn [app]. constructor; assumption.
        -- intros (pre & d & post & H & F & Nd & Md). destruct pre as [|d' pre]; inversion H; subst; [contradiction|]. exists pre, d, post. splits; auto. inversion F; assumption.
      * rewrite C. split.
        -- intros (pre & d & post & -> & Id & F). exists (e :: pre), d, post. splits; auto. intros d' [<-|Hd] Nd; [assumption|]. now apply F.
        -- intros (pre & d & post & H & Id & F). destruct pre as [|d' pre]; inversion H; subst; [contradiction|]. exists pre, d, post. splits; auto. intros d'' Hd Nd. apply F; [now right|assumption].
Qed.
Lemma aml_null : forall pton es, pton_ok pton ->
  (aml_loop pton es None 0 = -2 <-> Exists (invalid_entry pton) es) /\ (aml_loop pton es None 0 = 0 <-> Forall (fun e => ~ invalid_entry pton e) es).
Proof.
  intros pton es Hp. induction es as [|e r [IH1 IH2]]; [cbn; split; split; intros H; try discriminate; auto; inversion H|].
  cbn [aml_loop]. change (match e with c :: _ => c =? BANG | [] => false end) with (negative e). fold (body e).
  unfold entry_hits. destruct (is_nil (body e)) eqn:En.
  { assert (I : invalid_entry pton e) by (left; destruct (body e); [reflexivity|discriminate]). split; split; intros H; [now constructor|reflexivity|discriminate|inversion H; subst; contradiction]. }
  assert (Hb : body e <> []) by (destruct (body e); [discriminate|discriminate]).
  pose proof (cidr_spec pton (body e) Hp) as C. destruct (addr_pton_cidr pton (body e)) as [a l| |].
  - assert (NI : ~ invalid_entry pton e). { intros [H|(a' & l' & H & N)]; [congruence|]. destruct C as (Hr & Hc & _). destruct (reads_fun _ _ _ _ _ _ Hr H); subst. contradiction. }
    rewrite IH1, IH2. split; split; intros H; [now right|inversion H; subst; [contradiction|assumption]|constructor; assumption|inversion H; assumption].
  - assert (NI : ~ invalid_entry pton e). { intros [H|(a' & l' & H & N)]; [congruence|]. destruct (C _ _ H). }
    rewrite IH1, IH2. split; split; intros H; [now right|inversion H; subst; [contradiction|assumption]|constructor; assumption|inversion H; assumption].
  - assert (I : invalid_entry pton e) by (right; exact C). split; split; intros H; [now constructor|reflexivity|discriminate|inversion H; subst; contradiction].
Qed.

(** CIDR lists. *)
Definition cidr_entry (pton : list Z -> option xaddr) (cp : list Z) : Prop :=
  cp <> [] /\ zlen cp <= 49 /\ exists a l, reads pton cp a l /\ consistent a l.
Definition cidr_hit (pton : list Z -> option xaddr) (x : xaddr) (cp : list Z) : Prop :=
  exists a l, reads pton cp a l /\ consistent a l /\ in_network x a l.
Lemma acl_values : forall pton x es ret, pton_ok pton -> wf x -> ret = 0 \/ ret = 1 -> Forall (fun e => valid_chars e = true) es ->
  let v := acl_loop pton es (Some x) ret in
  (v = -1 <-> ~ Forall (cidr_entry pton) es) /\
  (v = 1 <-> Forall (cidr_entry pton) es /\ (ret = 1 \/ Exists (cidr_hit pton x) es)) /\ (v = 1 \/ v = 0 \/ v = -1).
Proof.
  intros pton x es. induction es as [|e r IH]; intros ret Hp Hx Hret Hv; cbn [acl_loop].
  - splits; [|split; [intros ->; auto|intros [_ [H|H]]; [auto|inversion H]]|lia]. split; [lia|]. intros H. exfalso. apply H. constructor.
  - inversion Hv as [|? ? V1 V2]; subst. rewrite V1.
    destruct (is_nil e) eqn:En.
    { assert (N : ~ Forall (cidr_entry pton) (e :: r)) by (intros H; inversion H as [|? ? [K _] _]; subst; destruct e; [congruence|discriminate]). splits; [tauto|split; [lia|tauto]|auto]. }
    assert (He : e <> []) by (destruct e; discriminate). change (46 + 3) with 49.
    destruct (49 <? zlen e) eqn:El.
    { assert (N : ~ Forall (cidr_entry pton) (e :: r)) by (intros H; inversion H as [|? ? (_ & K & _) _]; subst; lia). splits; [tauto|split; [lia|tauto]|auto]. }
    pose proof (cidr_spec pton e Hp) as C. destruct (addr_pton_cidr pton e) as [a l| |].
    + destruct C as (Hr & Hc & Ha & Hl). pose proof (netmatch_iff x a l Hx Ha Hl Hc) as NM.
      assert (CE : cidr_entry pton e) by (split; [assumption|split; [lia|exists a, l; auto]]).
      assert (CH : cidr_hit pton x e <-> addr_netmatch x a l = 0).
      { rewrite NM. split; [intros (a' & l' & H & _ & I)|intros I; exists a, l; auto]. destruct (reads_fun _ _ _ _ _ _ Hr H); subst. assumption. }
      destruct (IH (if addr_netmatch x a l =? 0 then 1 else ret) Hp Hx ltac:(destruct (_ =? _); auto) V2) as (A & B & D).
      splits; [| |exact D].
      * rewrite A. split; intros H K; apply H; [now inversion K|now constructor].
      * rewrite B. split; intros [F K].
        -- split; [now constructor|]. destruct K as [K|K]; [|right; now right]. destruct (_ =? 0) eqn:E; [right; left; apply CH; lia|auto].
        -- inversion F; subst. split; [assumption|]. destruct K as [K|K]; [left; destruct (_ =? 0); auto|]. inversion K; subst; [left|right; assumption].
           match goal with H : cidr_hit _ _ e |- _ => apply CH in H; rewrite H; reflexivity end.
    + assert (N : ~ Forall (cidr_entry pton) (e :: r)) by (intros H; inversion H as [|? ? (_ & _ & a & l & K & _) _]; subst; destruct (C _ _ K)). splits; [tauto|split; [lia|tauto]|auto].
    + destruct C as (a & l & Hr & Hc). assert (N : ~ Forall (cidr_entry pton) (e :: r)). { intros H; inversion H as [|? ? (_ & _ & a' & l' & K & K2) _]; subst. destruct (reads_fun _ _ _ _ _ _ Hr K); subst. contradiction. }
      splits; [tauto|split; [lia|tauto]|auto].
Qed.

(** Range expansion. *)
Definition zrange (lo : Z) (n : nat) : list Z := map (fun i => lo + Z.of_nat i) (seq 0 n).
Lemma zrange_S : forall lo n, zrange lo (S n) = lo :: zrange (lo + 1) n.
Proof.
  intros lo n. unfold zrange. cbn [seq map]. rewrite <- seq_shift, map_map. f_equal; [lia|]. apply map_ext. intros i. lia.
Qed.
Lemma expand_spec : forall n fuel a e, wf a -> wf e -> x_af a = x_af e -> x_scope a = x_scope e ->
  value a + Z.of_nat n = value e -> (n < fuel)%nat ->
  exists l, expand_loop fuel a e = Some l /\ map value l = zrange (value a) (S n) /\
    Forall (fun x => x_af x = x_af a /\ x_scope x = x_scope a /\ wf x) l.
Proof.
  induction n as [|n IH]; intros fuel a e Ha He Ea Es Hv Hf; (destruct fuel as [|fuel]; [lia|]); cbn [expand_loop].
  - assert (addr_cmp a e = 0) as ->. { apply cmp_zero; auto. splits; auto; [lia|]. intros _. assumption. }
    change (0 =? 0) with true. cbv iota. exists [a]. splits; auto. cbn [map]. rewrite zrange_S. unfold zrange. reflexivity.
  - assert (addr_cmp a e <> 0) as N. { intros H. apply cmp_zero in H; auto. lia. }
    replace (addr_cmp a e =? 0) with false by lia. destruct (increment_value a Ha) as (I1 & I2 & I3 & I4).
    pose proof (value_bound e He). pose proof (value_bound a Ha). rewrite Ea in *. rewrite Z.mod_small in I4 by lia.
    destruct (IH fuel (addr_increment a) e) as (l & El & Hl & Fl); try assumption; try congruence; try lia.
    rewrite El. exists (a :: l). splits; [reflexivity| |].
    + cbn [map]. rewrite Hl, I4. now rewrite (zrange_S (value a)).
    + constructor; [auto|]. eapply Forall_impl; [|exact Fl]. cbn. intros x (X1 & X2 & X3). rewrite X1, X2. auto.
Qed.
Lemma zrange_in : forall n lo v, In v (zrange lo n) <-> lo <= v < lo + Z.of_nat n.
Proof.
  intros n lo v. unfold zrange. rewrite in_map_iff. split.
  - intros (i & <- & H). apply in_seq in H. lia.
  - intros H. exists (Z.to_nat (v - lo)). split; [lia|]. apply in_seq. lia.
Qed.
Lemma zrange_nodup : forall n lo, NoDup (zrange lo n).
Proof.
  induction n as [|n IH]; intros lo; [constructor|]. rewrite zrange_S. constructor; [|apply IH]. rewrite zrange_in. lia.
Qed.
