(** Proofs for C83. *)
From Verif Require Import Base Text SshbufModel WireSpec AuthOptModel Dec TtyModel TtySpec.
Local Open Scope Z_scope.

(** ** One setting *)
Definition effect (p : platform) (t : termios) (s : Z * Z) : termios :=
  let (op, u) := s in
  if op =? 128 then mkT (t_flag t) (t_cc t) (baud_to_speed p (to_int u)) (t_out t)
  else if op =? 129 then mkT (t_flag t) (t_cc t) (t_in t) (baud_to_speed p (to_int u))
  else match find (fun m => fst m =? op) (pl_modes p) with Some m => apply_entry p t (snd m) u | None => t end.

Lemma loop_one : forall p t op v r fuel, 1 <= op < 160 -> 0 <= v < 4294967296 ->
  parse_loop (S fuel) p t (op :: be_enc 4 v ++ r) = parse_loop fuel p (effect p t (op, v)) r.
Proof.
  intros p t op v r fuel O V. cbn [parse_loop effect].
  assert (G : get_int 4 (be_enc 4 v ++ r) = Some (v, r)) by (apply get_int_enc; exact V).
  rewrite G. replace (op =? 0) with false by (symmetry; apply Z.eqb_neq; lia).
  destruct (op =? 128); [reflexivity|]. destruct (op =? 129); [reflexivity|].
  destruct (find (fun m => fst m =? op) (pl_modes p)); [reflexivity|].
  replace ((0 <? op) && (op <? 160)) with true; [reflexivity|]. symmetry. apply andb_true_iff. split; apply Z.ltb_lt; lia.
Qed.
Lemma loop_all : forall p ss l, settings ss l -> forall t tail fuel, (length (l ++ tail) < fuel)%nat ->
  exists fuel', (length tail < fuel')%nat /\ parse_loop fuel p t (l ++ tail) = parse_loop fuel' p (fold_left (effect p) ss t) tail.
Proof.
  intros p ss l H. induction H as [|op v ss l O V H IH]; intros t tail fuel L; [exists fuel; auto|].
  destruct fuel as [|fuel]; [lia|]. cbn [app] in *. rewrite <- app_assoc in *. rewrite loop_one by assumption.
  destruct (IH (effect p t (op, v)) tail fuel) as (fuel' & L' & E).
  - cbn [length] in L. rewrite app_length in L. lia.
  - exists fuel'. split; [assumption|]. rewrite E. reflexivity.
Qed.

(** ** All data *)
Inductive shape (b : list Z) : Prop :=
| sh_end : forall ss l tail, b = l ++ tail -> settings ss l -> ends tail -> shape b
| sh_left : forall ss l op more, b = l ++ op :: more -> settings ss l -> op = 0 \/ 160 <= op -> more <> [] -> shape b
| sh_short : forall ss l op more, b = l ++ op :: more -> settings ss l -> 1 <= op < 160 -> zlen more < 4 -> shape b.
Lemma shape_all : forall n b, (length b < n)%nat -> is_bytes b -> shape b.
Proof.
  induction n as [|n IH]; intros b L B; [lia|].
  destruct b as [|op b]; [apply (sh_end _ [] [] []); [reflexivity|constructor|left; reflexivity]|].
  inversion B as [|? ? B1 B2]; subst. unfold is_byte in B1.
  destruct (Z.eq_dec op 0) as [Z0|Z0]; [|destruct (Z_le_gt_dec 160 op) as [G|G]].
  1, 2: destruct b as [|c b]; [apply (sh_end _ [] [] [op]); [reflexivity|constructor|right; exists op; auto]
                              |apply (sh_left _ [] [] op (c :: b)); [reflexivity|constructor|auto|discriminate]].
  destruct (get_int 4 b) as [(v, r)|] eqn:E.
  - apply get_int_spec in E; [|assumption]. destruct E as (-> & V & Br). change (256 ^ Z.of_nat 4) with 4294967296 in V.
    assert (O : 1 <= op < 160) by lia.
    destruct (IH r) as [ss l tail -> S E | ss l op' more -> S E M | ss l op' more -> S E M]; [cbn [length] in L; rewrite app_length in L; lia|assumption| | |].
    + apply (sh_end _ ((op, v) :: ss) ([op] ++ be_enc 4 v ++ l) tail); [cbn [app]; rewrite <- app_assoc; reflexivity|constructor; assumption|assumption].
    + apply (sh_left _ ((op, v) :: ss) ([op] ++ be_enc 4 v ++ l) op' more); [cbn [app]; rewrite <- app_assoc; reflexivity|constructor; assumption|assumption|assumption].
    + apply (sh_short _ ((op, v) :: ss) ([op] ++ be_enc 4 v ++ l) op' more); [cbn [app]; rewrite <- app_assoc; reflexivity|constructor; assumption|assumption|assumption].
  - apply get_int_none in E. apply (sh_short _ [] [] op b); [reflexivity|constructor|lia|exact E].
Qed.
Lemma find_table : forall p op, table_ok p -> op <= 0 \/ 128 <= op -> find (fun m => fst m =? op) (pl_modes p) = None.
Proof.
  intros p op (_ & F) O. destruct (find (fun m => fst m =? op) (pl_modes p)) as [m|] eqn:E; [|reflexivity].
  apply find_some in E. destruct E as (I & E). rewrite Forall_forall in F. apply F in I. apply Z.eqb_eq in E. lia.
Qed.
Lemma loop_stop : forall p t op more fuel, table_ok p -> op = 0 \/ 160 <= op ->
  parse_loop (S fuel) p t (op :: more) = if 0 <? zlen more then PNone else PSet t.
Proof.
  intros p t op more fuel T O. cbn [parse_loop]. destruct (Z.eqb_spec op 0) as [E|E]; [reflexivity|].
  replace (op =? 128) with false by (symmetry; apply Z.eqb_neq; lia). replace (op =? 129) with false by (symmetry; apply Z.eqb_neq; lia).
  rewrite find_table by (auto; lia). replace (op <? 160) with false by (symmetry; apply Z.ltb_ge; lia). rewrite andb_false_r. reflexivity.
Qed.
Lemma loop_short : forall p t op more fuel, 1 <= op < 160 -> zlen more < 4 -> parse_loop (S fuel) p t (op :: more) = PFatal.
Proof.
  intros p t op more fuel O L. cbn [parse_loop]. replace (op =? 0) with false by (symmetry; apply Z.eqb_neq; lia).
  assert (G : get_int 4 more = None) by (apply get_int_none; exact L). rewrite G.
  destruct (op =? 128); [reflexivity|]. destruct (op =? 129); [reflexivity|]. destruct (find (fun m => fst m =? op) (pl_modes p)); [reflexivity|].
  replace ((0 <? op) && (op <? 160)) with true; [reflexivity|]. symmetry. apply andb_true_iff. split; apply Z.ltb_lt; lia.
Qed.
Lemma run_end : forall p t ss l tail, table_ok p -> settings ss l -> ends tail ->
  parse_loop (S (length (l ++ tail))) p t (l ++ tail) = PSet (fold_left (effect p) ss t).
Proof.
  intros p t ss l tail T S E. destruct (loop_all p ss l S t tail _ (Nat.lt_succ_diag_r _)) as (fuel & L & ->).
  destruct fuel as [|fuel]; [lia|]. destruct E as [-> | (op & -> & O)]; [reflexivity|]. rewrite loop_stop by assumption. reflexivity.
Qed.
Lemma run_left : forall p t ss l op more, table_ok p -> settings ss l -> op = 0 \/ 160 <= op -> more <> [] ->
  parse_loop (S (length (l ++ op :: more))) p t (l ++ op :: more) = PNone.
Proof.
  intros p t ss l op more T S O M. destruct (loop_all p ss l S t (op :: more) _ (Nat.lt_succ_diag_r _)) as (fuel & L & ->).
  destruct fuel as [|fuel]; [lia|]. rewrite loop_stop by assumption. destruct more as [|c more]; [congruence|].
  replace (0 <? zlen (c :: more)) with true; [reflexivity|]. symmetry. apply Z.ltb_lt. rewrite zlen_cons. pose proof (zlen_nonneg _ more). lia.
Qed.
Lemma run_short : forall p t ss l op more, settings ss l -> 1 <= op < 160 -> zlen more < 4 ->
  parse_loop (S (length (l ++ op :: more))) p t (l ++ op :: more) = PFatal.
Proof.
  intros p t ss l op more S O M. destruct (loop_all p ss l S t (op :: more) _ (Nat.lt_succ_diag_r _)) as (fuel & L & ->).
  destruct fuel as [|fuel]; [lia|]. apply loop_short; assumption.
Qed.

(** ** What the settings amount to *)
Lemma last_snoc : forall op ss o v, last_of op (ss ++ [(o, v)]) = if o =? op then Some v else last_of op ss.
Proof.
  intros op ss o v. induction ss as [|(a, w) ss IH]; cbn [app last_of]; [destruct (o =? op); reflexivity|].
  rewrite IH. destruct (o =? op); reflexivity.
Qed.
Lemma find_in : forall p op e, table_ok p -> In (op, e) (pl_modes p) -> find (fun m => fst m =? op) (pl_modes p) = Some (op, e).
Proof.
  intros p op e (N & _) I. induction (pl_modes p) as [|(o, x) l IH]; [destruct I|]. cbn [find fst]. cbn [map fst] in N. inversion N as [|? ? N1 N2]; subst.
  destruct I as [E|I].
  - injection E as -> ->. rewrite Z.eqb_refl. reflexivity.
  - destruct (Z.eqb_spec o op) as [-> | D]; [|auto]. exfalso. apply N1. apply in_map_iff. exists (op, e). auto.
Qed.
Lemma find_out : forall p op m, find (fun m => fst m =? op) (pl_modes p) = Some m -> m = (op, snd m) /\ In (op, snd m) (pl_modes p).
Proof.
  intros p op (o, e) H. apply find_some in H. destruct H as (I & E). cbn [fst] in E. apply Z.eqb_eq in E. subst o. auto.
Qed.
Lemma field_eqb_eq : forall a b, field_eqb a b = true <-> a = b.
Proof. intros [] []; cbn [field_eqb]; split; congruence. Qed.
Lemma constant_ok : forall p v, 0 <= v < 2147483648 -> constant_for p v (baud_to_speed p (to_int v)).
Proof.
  intros p v V. unfold to_int. replace (v <? 2147483648) with true by (symmetry; apply Z.ltb_lt; lia). unfold baud_to_speed, constant_for.
  induction (pl_speeds p) as [|(b, c) l IH]; [right; split; [intros []|reflexivity]|]. cbn [find fst].
  destruct (Z.eqb_spec b v) as [-> | D].
  - left. exists [], l. split; [reflexivity|intros []].
  - destruct IH as [(pre & post & E & N) | (N & E)].
    + left. exists ((b, c) :: pre), post. split; [rewrite E at 1; reflexivity|]. intros [X|X]; auto.
    + right. split; [|assumption]. intros [X|X]; auto.
Qed.
Lemma bit_effect : forall p t op u f mask n, table_ok p -> own_bit p op f mask n -> forall o,
  Z.testbit (t_flag (effect p t (o, u)) f) n = if o =? op then negb (u =? 0) else Z.testbit (t_flag t f) n.
Proof.
  intros p t op u f mask n T (I & N & -> & D) o. cbn [effect].
  assert (R : 1 <= op < 128) by (destruct T as (_ & F); rewrite Forall_forall in F; apply F in I; exact I).
  destruct (Z.eqb_spec o op) as [-> | Ne].
  - replace (op =? 128) with false by (symmetry; apply Z.eqb_neq; lia). replace (op =? 129) with false by (symmetry; apply Z.eqb_neq; lia).
    rewrite (find_in _ _ _ T I). cbn [snd apply_entry]. destruct (Z.eqb_spec u 0) as [U|U]; cbn [set_flag t_flag negb]; rewrite (proj2 (field_eqb_eq f f) eq_refl).
    + rewrite Z.land_spec, Z.lnot_spec by assumption. rewrite Z.pow2_bits_true by assumption. apply andb_false_r.
    + rewrite Z.lor_spec, Z.pow2_bits_true by assumption. apply orb_true_r.
  - destruct (o =? 128); [reflexivity|]. destruct (o =? 129); [reflexivity|].
    destruct (find (fun m => fst m =? o) (pl_modes p)) as [m|] eqn:E; [|reflexivity]. apply find_out in E. destruct E as (_ & E).
    destruct (snd m) as [i|g k]; [reflexivity|]. cbn [apply_entry]. destruct (field_eqb f g) eqn:Fg.
    + apply field_eqb_eq in Fg. subst g. pose proof (D _ _ E Ne) as K.
      destruct (u =? 0); cbn [set_flag t_flag]; rewrite (proj2 (field_eqb_eq f f) eq_refl).
      * rewrite Z.land_spec, Z.lnot_spec, K by assumption. apply andb_true_r.
      * rewrite Z.lor_spec, K. apply orb_false_r.
    + destruct (u =? 0); cbn [set_flag t_flag]; rewrite Fg; reflexivity.
Qed.
Lemma other_bit : forall p t o u f n, 0 <= n -> (forall op mask, In (op, EMode f mask) (pl_modes p) -> Z.testbit mask n = false) ->
  Z.testbit (t_flag (effect p t (o, u)) f) n = Z.testbit (t_flag t f) n.
Proof.
  intros p t o u f n N D. cbn [effect]. destruct (o =? 128); [reflexivity|]. destruct (o =? 129); [reflexivity|].
  destruct (find (fun m => fst m =? o) (pl_modes p)) as [m|] eqn:E; [|reflexivity]. apply find_out in E. destruct E as (_ & E).
  destruct (snd m) as [i|g k]; [reflexivity|]. cbn [apply_entry]. destruct (field_eqb f g) eqn:Fg.
  - apply field_eqb_eq in Fg. subst g. pose proof (D _ _ E) as K.
    destruct (u =? 0); cbn [set_flag t_flag]; rewrite (proj2 (field_eqb_eq f f) eq_refl).
    + rewrite Z.land_spec, Z.lnot_spec, K by assumption. apply andb_true_r.
    + rewrite Z.lor_spec, K. apply orb_false_r.
  - destruct (u =? 0); cbn [set_flag t_flag]; rewrite Fg; reflexivity.
Qed.
Lemma char_effect : forall p t op u i, table_ok p -> own_char p op i -> forall o,
  t_cc (effect p t (o, u)) i = if o =? op then char_decode p u else t_cc t i.
Proof.
  intros p t op u i T (I & D) o. cbn [effect].
  assert (R : 1 <= op < 128) by (destruct T as (_ & F); rewrite Forall_forall in F; apply F in I; exact I).
  destruct (Z.eqb_spec o op) as [-> | Ne].
  - replace (op =? 128) with false by (symmetry; apply Z.eqb_neq; lia). replace (op =? 129) with false by (symmetry; apply Z.eqb_neq; lia).
    rewrite (find_in _ _ _ T I). cbn [snd apply_entry set_cc t_cc]. rewrite Z.eqb_refl. reflexivity.
  - destruct (o =? 128); [reflexivity|]. destruct (o =? 129); [reflexivity|].
    destruct (find (fun m => fst m =? o) (pl_modes p)) as [m|] eqn:E; [|reflexivity]. apply find_out in E. destruct E as (_ & E).
    destruct (snd m) as [j|g k]; cbn [apply_entry].
    + cbn [set_cc t_cc]. destruct (Z.eqb_spec i j) as [<- | X]; [|reflexivity]. apply D in E. congruence.
    + destruct (u =? 0); reflexivity.
Qed.
Lemma other_char : forall p t o u i, (forall op, ~ In (op, EChar i) (pl_modes p)) -> t_cc (effect p t (o, u)) i = t_cc t i.
Proof.
  intros p t o u i D. cbn [effect]. destruct (o =? 128); [reflexivity|]. destruct (o =? 129); [reflexivity|].
  destruct (find (fun m => fst m =? o) (pl_modes p)) as [m|] eqn:E; [|reflexivity]. apply find_out in E. destruct E as (_ & E).
  destruct (snd m) as [j|g k]; cbn [apply_entry].
  - cbn [set_cc t_cc]. destruct (Z.eqb_spec i j) as [<- | X]; [|reflexivity]. apply D in E. contradiction.
  - destruct (u =? 0); reflexivity.
Qed.
Lemma speed_effect : forall p t o u, table_ok p ->
  t_in (effect p t (o, u)) = (if o =? 128 then baud_to_speed p (to_int u) else t_in t) /\
  t_out (effect p t (o, u)) = (if o =? 129 then baud_to_speed p (to_int u) else t_out t).
Proof.
  intros p t o u T. cbn [effect]. destruct (Z.eqb_spec o 128) as [-> | N1]; [split; reflexivity|]. destruct (Z.eqb_spec o 129) as [-> | N2]; [split; reflexivity|].
  destruct (find (fun m => fst m =? o) (pl_modes p)) as [m|]; [|split; reflexivity].
  destruct (snd m); cbn [apply_entry]; [split; reflexivity|]. destruct (u =? 0); split; reflexivity.
Qed.
Lemma meant_fold : forall p t ss, table_ok p -> Forall (fun s => 0 <= snd s) ss -> meant p t ss (fold_left (effect p) ss t).
Proof.
  intros p t ss T P. induction ss as [|(o, u) ss IH] using rev_ind.
  - unfold meant. cbn [last_of fold_left setting_or]. splits; auto.
  - apply Forall_app in P. destruct P as (P & P1). inversion P1 as [|? ? P2 _]; subst. cbn [snd] in P2.
    destruct (IH P) as (H1 & H2 & H3 & H4 & H5 & H6). rewrite fold_left_app. cbn [fold_left].
    set (t1 := fold_left (effect p) ss t) in *. destruct (speed_effect p t1 o u T) as (S1 & S2).
    unfold meant. rewrite S1, S2. splits.
    + rewrite last_snoc. destruct (o =? 128); [intros V; apply constant_ok; lia|exact H1].
    + rewrite last_snoc. destruct (o =? 129); [intros V; apply constant_ok; lia|exact H2].
    + intros op f mask n B. rewrite last_snoc, (bit_effect p t1 op u f mask n T B o). destruct (o =? op); [reflexivity|eapply H3; exact B].
    + intros f n N D. rewrite other_bit by assumption. apply H4; assumption.
    + intros op i B. rewrite last_snoc, (char_effect p t1 op u i T B o). destruct (o =? op); [reflexivity|apply H5; exact B].
    + intros i D. rewrite other_char by assumption. apply H6; assumption.
Qed.
Lemma settings_nonneg : forall ss l, settings ss l -> Forall (fun s => 0 <= snd s) ss.
Proof. intros ss l H. induction H; constructor; auto. cbn [snd]. lia. Qed.

(** ** What is sent *)
Definition sent (p : platform) (bug : bool) (t : termios) (m : Z * entry) : list (Z * Z) :=
  match snd m with
  | EChar i => [(fst m, char_encode p (t_cc t i))]
  | EMode f mask => if (fst m =? 42) && bug then [] else [(fst m, if Z.land (t_flag t f) mask =? 0 then 0 else 1)]
  end.
Definition all_sent (p : platform) (bug : bool) (t : termios) : list (Z * Z) :=
  (129, speed_to_baud p (t_out t)) :: (128, speed_to_baud p (t_in t)) :: flat_map (sent p bug t) (pl_modes p).
Lemma baud_range : forall p s, speeds_ok p -> 0 <= speed_to_baud p s < 2147483648.
Proof.
  intros p s F. unfold speed_to_baud. destruct (find (fun x => snd x =? s) (pl_speeds p)) as [x|] eqn:E; [|lia].
  apply find_some in E. destruct E as (I & _). unfold speeds_ok in F. rewrite Forall_forall in F. apply F in I. exact I.
Qed.
Lemma char_range : forall p t i, chars_ok t -> 0 <= char_encode p (t_cc t i) < 4294967296.
Proof.
  intros p t i C. pose proof (C i). unfold char_encode. destruct (pl_vdisable p); [destruct (t_cc t i =? z)|]; lia.
Qed.
Lemma sent_settings : forall p bug t ms, chars_ok t -> Forall (fun m => 1 <= fst m < 128) ms ->
  settings (flat_map (sent p bug t) ms) (flat_map (make_mode p bug t) ms).
Proof.
  intros p bug t ms C F. induction F as [|(op, e) ms R F IH]; [constructor|]. cbn [flat_map]. cbn [fst] in R.
  destruct e as [i|f mask]; unfold sent at 1, make_mode at 1; cbn [fst snd].
  - unfold op_arg. cbn [app]. constructor; [lia|apply char_range; assumption|assumption].
  - destruct ((op =? 42) && bug); [exact IH|]. unfold op_arg. cbn [app]. constructor; [lia|destruct (Z.land (t_flag t f) mask =? 0); lia|assumption].
Qed.
Lemma all_settings : forall p bug t, chars_ok t -> table_ok p -> speeds_ok p ->
  exists l, make_modes p bug (Some t) = l ++ [0] /\ settings (all_sent p bug t) l.
Proof.
  intros p bug t C (_ & F) S. exists (op_arg 129 (speed_to_baud p (t_out t)) ++ op_arg 128 (speed_to_baud p (t_in t)) ++ flat_map (make_mode p bug t) (pl_modes p)).
  split; [reflexivity|]. unfold all_sent, op_arg. pose proof (baud_range p (t_out t) S). pose proof (baud_range p (t_in t) S).
  change (settings ((129, speed_to_baud p (t_out t)) :: (128, speed_to_baud p (t_in t)) :: flat_map (sent p bug t) (pl_modes p))
    ([129] ++ be_enc 4 (speed_to_baud p (t_out t)) ++ [128] ++ be_enc 4 (speed_to_baud p (t_in t)) ++ flat_map (make_mode p bug t) (pl_modes p))).
  constructor; [lia|lia|]. constructor; [lia|lia|]. apply sent_settings; assumption.
Qed.
Lemma last_in : forall op ss v, NoDup (map fst ss) -> In (op, v) ss -> last_of op ss = Some v.
Proof.
  intros op ss v. induction ss as [|(o, w) ss IH]; intros N I; [destruct I|]. cbn [map fst] in N. inversion N as [|? ? N1 N2]; subst.
  cbn [last_of]. destruct I as [E|I].
  - injection E as -> ->. assert (L : forall l, ~ In op (map fst l) -> last_of op l = None).
    { intros l. induction l as [|(a, b) l IHl]; [reflexivity|]. cbn [map fst In last_of]. intros X. rewrite IHl by tauto.
      destruct (Z.eqb_spec a op); [tauto|reflexivity]. }
    rewrite L by assumption. rewrite Z.eqb_refl. reflexivity.
  - rewrite (IH N2 I). reflexivity.
Qed.
Lemma last_out : forall op ss, ~ In op (map fst ss) -> last_of op ss = None.
Proof.
  intros op ss. induction ss as [|(a, b) l IHl]; [reflexivity|]. cbn [map fst In last_of]. intros X. rewrite IHl by tauto.
  destruct (Z.eqb_spec a op); [tauto|reflexivity].
Qed.
Lemma sent_ops : forall p bug t ms op, In op (map fst (flat_map (sent p bug t) ms)) -> In op (map fst ms).
Proof.
  intros p bug t ms op H. apply in_map_iff in H. destruct H as ((o, v) & <- & I). apply in_flat_map in I. destruct I as ((o', e) & J & K).
  apply in_map_iff. exists (o', e). split; [|assumption]. unfold sent in K. cbn [fst snd] in *. destruct e as [i|f mask].
  - destruct K as [E|[]]. injection E as -> _. reflexivity.
  - destruct ((o' =? 42) && bug); [destruct K|]. destruct K as [E|[]]. injection E as -> _. reflexivity.
Qed.
Lemma sent_nodup : forall p bug t ms, NoDup (map fst ms) -> NoDup (map fst (flat_map (sent p bug t) ms)).
Proof.
  intros p bug t ms. induction ms as [|(o, e) ms IH]; intros N; [constructor|]. cbn [map fst] in N. inversion N as [|? ? N1 N2]; subst.
  cbn [flat_map]. unfold sent at 1. cbn [fst snd].
  assert (K : ~ In o (map fst (flat_map (sent p bug t) ms))) by (intros X; apply N1; eapply sent_ops; exact X).
  destruct e as [i|f mask]; [|destruct ((o =? 42) && bug); [exact (IH N2)|]]; cbn [app map fst]; constructor; auto.
Qed.
Lemma all_nodup : forall p bug t, table_ok p -> NoDup (map fst (all_sent p bug t)).
Proof.
  intros p bug t (N & F). unfold all_sent. cbn [map fst].
  assert (K : forall op, 128 <= op -> ~ In op (map fst (flat_map (sent p bug t) (pl_modes p)))).
  { intros op O X. apply sent_ops in X. apply in_map_iff in X. destruct X as (m & <- & I). rewrite Forall_forall in F. apply F in I. lia. }
  constructor; [|constructor].
  - cbn [In]. intros [X|X]; [discriminate|]. apply K in X; [contradiction|lia].
  - intros X. apply K in X; [contradiction|lia].
  - apply sent_nodup. assumption.
Qed.
Lemma in_all : forall p bug t m s, In m (pl_modes p) -> In s (sent p bug t m) -> In s (all_sent p bug t).
Proof. intros p bug t m s I J. right. right. apply in_flat_map. exists m. auto. Qed.
Lemma not_all : forall p bug t op, 1 <= op < 128 -> (forall e, ~ In (op, e) (pl_modes p)) -> last_of op (all_sent p bug t) = None.
Proof.
  intros p bug t op O N. apply last_out. unfold all_sent. cbn [map fst In]. intros [X|[X|X]]; [lia|lia|].
  apply sent_ops in X. apply in_map_iff in X. destruct X as ((o, e) & <- & I). apply (N e). exact I.
Qed.
