(** Proofs for ServProps, part 2: what executing a directive does. *)
From Coq Require Import String.
From Verif Require Import Base Text MatchModel MiscNumModel MiscNumSpec MiscNumProof ArgvModel AddrModel AddrProof ServModel ServSpec ServProof.
Local Open Scope Z_scope.

Lemma iopt_beq_spec : forall i j, iopt_beq i j = true <-> i = j.
Proof. intros. split; [apply internal_iopt_dec_bl|apply internal_iopt_dec_lb]. Qed.
Lemma sopt_beq_spec : forall i j, sopt_beq i j = true <-> i = j.
Proof. intros. split; [apply internal_sopt_dec_bl|apply internal_sopt_dec_lb]. Qed.
Lemma aopt_beq_spec : forall i j, aopt_beq i j = true <-> i = j.
Proof. intros. split; [apply internal_aopt_dec_bl|apply internal_aopt_dec_lb]. Qed.

Lemma set_int_inactive : forall i v o, set_int false i v o = o. Proof. reflexivity. Qed.
Lemma set_str_inactive : forall i v o, set_str false i v o = o. Proof. reflexivity. Qed.
Lemma once_arr_inactive : forall a v o, once_arr false a v o = o.
Proof. intros. unfold once_arr. now rewrite andb_false_r. Qed.
Lemma do_time_inactive : forall i ws o o', do_time false i ws o = Some o' -> o' = o.
Proof.
  intros i [|w [|]] o o' H; cbn [do_time] in H; try discriminate. destruct (is_nil w); [discriminate|]. cbv zeta in H.
  destruct (convtime w =? -1); [discriminate|]. rewrite set_int_inactive in H. congruence.
Qed.

Section Exec.
Variable E : env.
Lemma exec_inactive : forall p k rest ws o o', exec E p k rest ws false o = Some o' -> o' = o.
Proof.
  intros p k rest ws o o' H. destruct p; cbn [exec] in H.
  - destruct ws as [|w [|]]; try discriminate. destruct (state_value t w); [|discriminate]. cbn in H. congruence.
  - now apply do_time_inactive in H.
  - destruct ws as [|w [|]]; try discriminate. destruct (atoi_err w); [|discriminate]. cbn in H. congruence.
  - destruct (pubkey_opts ws 0); [|discriminate]. cbn in H. congruence.
  - destruct ws as [|w [|]]; try discriminate. destruct (exact_value t_tun w); [|discriminate]. cbn in H. congruence.
  - destruct ws as [|w r]; [discriminate|]. destruct (is_nil w); [discriminate|].
    match type of H with match ?x with _ => _ end = _ => destruct x; [|discriminate] end. cbv zeta in H. rewrite set_int_inactive in H.
    destruct r as [|t r']; [congruence|]. destruct (beqb t (bs "none")); [destruct (is_nil r'); congruence|]. now apply do_time_inactive in H.
  - destruct ws as [|w [|w2 [|]]]; try discriminate; (destruct (is_nil w); [discriminate|]).
    + destruct (e_ipqos E w); [|discriminate]. cbn in H. congruence.
    + destruct (e_ipqos E w); [|discriminate]. destruct (e_ipqos E w2); [|discriminate]. cbn in H. congruence.
  - destruct ws as [|w [|]]; try discriminate. destruct (is_nil w); [discriminate|]. destruct (e_octal E w); [|discriminate].
    match type of H with (if ?b then _ else _) = _ => destruct b; [discriminate|] end. cbn in H. congruence.
  - destruct ws as [|w r]; [discriminate|]. destruct (strcaseeq w (bs "none")); [destruct (is_nil r); [|discriminate]; cbn in H; congruence|].
    now apply do_time_inactive in H.
  - destruct ws as [|w [|]]; try discriminate. destruct (is_nil w); [discriminate|]. rewrite set_str_inactive in H. congruence.
  - destruct ws as [|w [|]]; try discriminate. destruct (is_nil w); [discriminate|]. rewrite set_str_inactive in H. congruence.
  - destruct ws as [|w [|]]; try discriminate. destruct (is_nil w); [discriminate|]. rewrite set_str_inactive in H. congruence.
  - destruct ws as [|w [|]]; try discriminate. destruct (algos_arg E ca_only w); [|discriminate]. rewrite set_str_inactive in H. congruence.
  - rewrite set_str_inactive in H. congruence.
  - cbv zeta in H. match type of H with (if ?b then _ else _) = _ => destruct b; [|discriminate] end. rewrite set_str_inactive in H. congruence.
  - match type of H with (if ?b then _ else _) = _ => destruct b; [discriminate|] end. cbn in H. congruence.
  - match type of H with (if ?b then _ else _) = _ => destruct b; [discriminate|] end. cbn in H. congruence.
  - match type of H with (if ?b then _ else _) = _ => destruct b; [discriminate|] end. cbn in H. congruence.
  - destruct (once_loop E k0 ws false []); [|discriminate]. cbn [option_map] in H. rewrite once_arr_inactive in H. congruence.
  - destruct ws as [|n r]; [discriminate|]. cbn [do_subsystem negb] in H. destruct (is_nil n); congruence.
  - discriminate.
  - discriminate.
  - congruence.
  - discriminate.
  - destruct (e_other E k rest ws); congruence.
Qed.

(** ** Integers *)
Definition forced (i : iopt) : bool := match i with ip_qos_interactive | ip_qos_bulk | streamlocal_bind_mask => true | _ => false end.
Definition mixed (i : iopt) : bool := match i with unused_connection_timeout => true | _ => false end.
Lemma state_value_in : forall t w v, state_value t w = Some v -> In v (map snd t).
Proof. induction t as [|[k x] t IH]; intros w v H; cbn [state_value] in H; [discriminate|]. destruct (strcaseeq w k); cbn [map In snd]; [left; congruence|right; eauto]. Qed.
Lemma exact_value_in : forall t w v, exact_value t w = Some v -> In v (map snd t).
Proof. induction t as [|[k x] t IH]; intros w v H; cbn [exact_value] in H; [discriminate|]. destruct (beqb w k); cbn [map In snd]; [left; congruence|right; eauto]. Qed.
Definition nonneg_op (p : op) : bool := match p with OMulti i t => negb (forced i) && negb (mixed i) && forallb (fun x => 0 <=? snd x) t | OTime i | ONum i => negb (forced i) && negb (mixed i) | _ => true end.
Lemma table_nonneg : forallb (fun '(n, p, _) => nonneg_op p) keywords = true.
Proof. vm_compute. reflexivity. Qed.
Lemma keyword_nonneg : forall k p m, find_keyword keywords k = Some (p, m) -> nonneg_op p = true.
Proof.
  intros k p m H. destruct (find_keyword_in _ _ _ _ H) as (n & A & B). pose proof table_nonneg as T. rewrite forallb_forall in T. exact (T _ A).
Qed.
Lemma atoi_nonneg : forall w v, atoi_err w = Some v -> 0 <= v.
Proof.
  intros w v H. unfold atoi_err in H. destruct w as [|c r]; [discriminate|].
  destruct (strtonum (c :: r) 0 INT_MAX) eqn:Q; [|discriminate]. assert (L : LLONG_MIN <= 0 /\ INT_MAX <= LLONG_MAX) by (unfold LLONG_MIN, LLONG_MAX, INT_MAX; lia).
  apply strtonum_ok in Q; [|lia|lia]. injection H as <-. lia.
Qed.

Definition int_step (p : op) (ws : list (list Z)) (o o' : opts) (i : iopt) : Prop :=
  (exists v, op_int E p ws i v /\ o_int o' i = (if forced i then v else if o_int o i =? -1 then v else o_int o i) /\ (forced i = false -> v <> -1)) \/
  ((forall v, ~ op_int E p ws i v) /\ o_int o' i = o_int o i).
Lemma set_int_get : forall i v o j, o_int (set_int true i v o) j = if iopt_beq i j then if o_int o j =? -1 then v else o_int o j else o_int o j.
Proof.
  intros. unfold set_int. cbn [andb]. destruct (iopt_beq i j) eqn:Q.
  - apply iopt_beq_spec in Q. subst j. destruct (o_int o i =? -1); [|reflexivity]. cbn. now rewrite (proj2 (iopt_beq_spec i i) eq_refl).
  - destruct (o_int o i =? -1); [|reflexivity]. cbn. now rewrite Q.
Qed.
Lemma set_step : forall p ws o i v, forced i = false -> v <> -1 -> (forall j x, op_int E p ws j x <-> j = i /\ x = v) -> forall j, int_step p ws o (set_int true i v o) j.
Proof.
  intros p ws o i v F V X j. unfold int_step. rewrite set_int_get. destruct (iopt_beq i j) eqn:Q.
  - apply iopt_beq_spec in Q. subst j. left. exists v. rewrite F. split; [now apply X|]. auto.
  - right. split; [|reflexivity]. intros x Y. apply X in Y. destruct Y as [-> _]. rewrite (proj2 (iopt_beq_spec i i) eq_refl) in Q. discriminate.
Qed.
Lemma nil_step : forall p ws o o' , (forall j x, ~ op_int E p ws j x) -> o_int o' = o_int o -> forall j, int_step p ws o o' j.
Proof. intros p ws o o' H Q j. right. split; [apply H|]. now rewrite Q. Qed.
Lemma set_str_int : forall s v o, o_int (set_str true s v o) = o_int o.
Proof. intros. unfold set_str. destruct (o_str o s); reflexivity. Qed.
Lemma once_arr_int : forall a v o, o_int (once_arr true a v o) = o_int o.
Proof. intros. unfold once_arr. destruct (is_nil (o_arr o a) && true); reflexivity. Qed.
Lemma do_time_some : forall i ws o o', do_time true i ws o = Some o' -> exists w, ws = [w] /\ convtime w <> -1 /\ o' = set_int true i (convtime w) o.
Proof.
  intros i [|w [|]] o o' H; cbn [do_time] in H; try discriminate. destruct (is_nil w); [discriminate|]. cbv zeta in H.
  destruct (convtime w =? -1) eqn:Q; [discriminate|]. exists w. split; [reflexivity|]. split; [lia|congruence].
Qed.
Lemma exec_int : forall p k rest ws o o' m, find_keyword keywords k = Some (p, m) -> exec E p k rest ws true o = Some o' ->
  forall i, mixed i = false -> int_step p ws o o' i.
Proof.
  intros p k rest ws o o' m F H. pose proof (keyword_nonneg _ _ _ F) as N. clear F.
  destruct p; cbn [exec] in H; cbn [nonneg_op] in N.
  - destruct ws as [|w [|]]; try discriminate. destruct (state_value t w) as [v|] eqn:Q; [|discriminate]. cbn [option_map] in H. injection H as <-.
    apply andb_true_iff in N. destruct N as [N N3]. apply andb_true_iff in N. destruct N as [N1 N2]. intros j _. apply set_step.
    + now destruct (forced i).
    + rewrite forallb_forall in N3. apply state_value_in in Q. apply in_map_iff in Q. destruct Q as (x & <- & Q). specialize (N3 _ Q). lia.
    + intros a x. cbn [op_int]. split; [intros (-> & w' & A & B); split; [reflexivity|]; congruence|intros [-> ->]; eauto].
  - apply do_time_some in H. destruct H as (w & -> & V & ->). apply andb_true_iff in N. destruct N as [N1 N2]. intros j _. apply set_step; [now destruct (forced i)|exact V|].
    intros a x. cbn [op_int]. split; [intros (-> & w' & A & B & C); split; [reflexivity|]; congruence|intros [-> ->]; eauto].
  - destruct ws as [|w [|]]; try discriminate. destruct (atoi_err w) as [v|] eqn:Q; [|discriminate]. cbn [option_map] in H. injection H as <-.
    apply andb_true_iff in N. destruct N as [N1 N2]. intros j _. apply set_step; [now destruct (forced i)|apply atoi_nonneg in Q; lia|].
    intros a x. cbn [op_int]. split; [intros (-> & w' & A & B); split; [reflexivity|]; congruence|intros [-> ->]; eauto].
  - destruct (pubkey_opts ws 0) as [v|] eqn:Q; [|discriminate]. cbn [option_map] in H. injection H as <-. intros j _. apply set_step; [reflexivity| |].
    + apply pubkey_opts_iff in Q; lia.
    + intros a x. cbn [op_int]. rewrite Q. split; [intros (-> & A); split; [reflexivity|]; congruence|intros [-> ->]; auto].
  - destruct ws as [|w [|]]; try discriminate. destruct (exact_value t_tun w) as [v|] eqn:Q; [|discriminate]. cbn [option_map] in H. injection H as <-.
    intros j _. apply set_step; [reflexivity| |].
    + apply exact_value_in in Q. cbn in Q. lia.
    + intros a x. cbn [op_int]. split; [intros (-> & w' & A & B); split; [reflexivity|]; congruence|intros [-> ->]; eauto].
  - destruct ws as [|w r]; [discriminate|]. destruct (is_nil w); [discriminate|].
    match type of H with match ?x with _ => _ end = _ => destruct x as [v|] eqn:Q; [|discriminate] end. cbv zeta in H.
    assert (V : v <> -1 /\ (w = bs "default" /\ v = 0 \/ w <> bs "default" /\ e_scaled E w = Some v)).
    { destruct (beqb w (bs "default")) eqn:B.
      - apply beqb_eq in B. injection Q as <-. split; [lia|auto].
      - apply beqb_neq in B. destruct (e_scaled E w) as [x|]; [|discriminate]. destruct (negb (x =? 0) && (x <? 16)) eqn:C; [discriminate|]. injection Q as <-.
        split; [|auto]. apply andb_false_iff in C. destruct C as [C|C]; [apply negb_false_iff in C|]; lia. }
    destruct V as [V1 V2].
    assert (L : forall x, op_int E ORekey (w :: r) rekey_limit x <-> x = v).
    { intros x. cbn [op_int]. split; [|intros ->; left; eauto].
      intros [(_ & w' & r' & A & B)|(A & _)]; [|discriminate]. injection A as <- <-. destruct B as [[B ->]|[B C]], V2 as [[V ->]|[V V']]; congruence. }
    assert (G : forall x, op_int E ORekey (w :: r) rekey_interval x <-> exists t, r = [t] /\ t <> bs "none" /\ convtime t = x /\ x <> -1).
    { intros x. cbn [op_int]. split; [|intros (t & -> & A); right; eauto 8].
      intros [(A & _)|(_ & w' & t & A & B)]; [discriminate|]. injection A as <- ->. eauto. }
    assert (Z0 : forall i x, op_int E ORekey (w :: r) i x -> i = rekey_limit \/ i = rekey_interval).
    { intros i x [(A & _)|(A & _)]; auto. }
    assert (H1 : forall o1 i, o1 = set_int true rekey_limit v o -> (forall x, ~ op_int E ORekey (w :: r) rekey_interval x) -> int_step ORekey (w :: r) o o1 i).
    { intros o1 i -> No. unfold int_step. rewrite set_int_get. destruct (iopt_beq rekey_limit i) eqn:B.
      - apply iopt_beq_spec in B. subst i. left. exists v. split; [now apply L|]. auto.
      - right. split; [|reflexivity]. intros x X. destruct (Z0 _ _ X) as [-> | ->]; [discriminate|]. eapply No; eauto. }
    destruct r as [|t r']; [injection H as <-; intros i _; apply H1; [reflexivity|]; intros x X; apply G in X; destruct X as (? & [=] & _)|].
    destruct (beqb t (bs "none")) eqn:B.
    + destruct (is_nil r'); [|discriminate]. injection H as <-. apply beqb_eq in B. intros i _. apply H1; [reflexivity|].
      intros x X. apply G in X. destruct X as (t' & X & Y & _). congruence.
    + apply beqb_neq in B. apply do_time_some in H. destruct H as (t' & X & T & ->). injection X as -> ->. intros i _. unfold int_step. rewrite !set_int_get.
      destruct (iopt_beq rekey_interval i) eqn:B1.
      * apply iopt_beq_spec in B1. subst i. left. exists (convtime t'). split; [apply G; eauto|]. auto.
      * destruct (iopt_beq rekey_limit i) eqn:B2.
        -- apply iopt_beq_spec in B2. subst i. left. exists v. split; [now apply L|]. auto.
        -- right. split; [|reflexivity]. intros x X. destruct (Z0 _ _ X) as [-> | ->]; discriminate.
  - intros i _. unfold int_step. destruct ws as [|w [|w2 [|]]]; try discriminate; (destruct (is_nil w); [discriminate|]).
    + destruct (e_ipqos E w) as [v|] eqn:Q; [|discriminate]. cbn [option_map] in H. injection H as <-.
      unfold force_int. cbn [put_int o_int]. destruct (iopt_beq ip_qos_bulk i) eqn:B1; [apply iopt_beq_spec in B1; subst i|destruct (iopt_beq ip_qos_interactive i) eqn:B2; [apply iopt_beq_spec in B2; subst i|]].
      * left. exists v. cbn [op_int forced]. split; [right; split; [reflexivity|]; eauto|]. split; [reflexivity|discriminate].
      * left. exists v. cbn [op_int forced]. split; [left; split; [reflexivity|]; eauto|]. split; [reflexivity|discriminate].
      * right. split; [|reflexivity]. intros x [(-> & _)|(-> & _)]; discriminate.
    + destruct (e_ipqos E w) as [v|] eqn:Q; [|discriminate]. destruct (e_ipqos E w2) as [v2|] eqn:Q2; [|discriminate]. cbn [option_map] in H. injection H as <-.
      unfold force_int. cbn [put_int o_int]. destruct (iopt_beq ip_qos_bulk i) eqn:B1; [apply iopt_beq_spec in B1; subst i|destruct (iopt_beq ip_qos_interactive i) eqn:B2; [apply iopt_beq_spec in B2; subst i|]].
      * left. exists v2. cbn [op_int forced]. split; [right; split; [reflexivity|]; exists w2; eauto|]. split; [reflexivity|discriminate].
      * left. exists v. cbn [op_int forced]. split; [left; split; [reflexivity|]; eauto|]. split; [reflexivity|discriminate].
      * right. split; [|reflexivity]. intros x [(-> & _)|(-> & _)]; discriminate.
  - intros i _. unfold int_step. destruct ws as [|w [|]]; try discriminate. destruct (is_nil w); [discriminate|]. destruct (e_octal E w) as [v|] eqn:Q; [|discriminate].
    match type of H with (if ?b then _ else _) = _ => destruct b eqn:Rg; [discriminate|] end. injection H as <-. unfold force_int. cbn [put_int o_int].
    destruct (iopt_beq streamlocal_bind_mask i) eqn:B; [apply iopt_beq_spec in B; subst i|].
    + left. exists v. cbn [op_int forced]. split; [split; [reflexivity|]; split; [lia|]; eauto|]. split; [reflexivity|discriminate].
    + right. split; [|reflexivity]. intros x (-> & _). discriminate.
  - intros i M. destruct ws as [|w r]; [discriminate|]. right. split; [intros v (-> & _); discriminate|].
    destruct (strcaseeq w (bs "none")); [destruct (is_nil r); [|discriminate]; injection H as <-|].
    + unfold force_int. cbn [put_int o_int]. destruct (iopt_beq unused_connection_timeout i) eqn:B; [apply iopt_beq_spec in B; subst i; discriminate|reflexivity].
    + apply do_time_some in H. destruct H as (? & _ & _ & ->). rewrite set_int_get. destruct (iopt_beq unused_connection_timeout i) eqn:B; [apply iopt_beq_spec in B; subst i; discriminate|reflexivity].
  - intros i _. destruct ws as [|w [|]]; try discriminate. destruct (is_nil w); [discriminate|]. apply nil_step; [intros ? ? []|]. injection H as <-. apply set_str_int.
  - intros i _. destruct ws as [|w [|]]; try discriminate. destruct (is_nil w); [discriminate|]. apply nil_step; [intros ? ? []|]. injection H as <-. apply set_str_int.
  - intros i _. destruct ws as [|w [|]]; try discriminate. destruct (is_nil w); [discriminate|]. apply nil_step; [intros ? ? []|]. injection H as <-. apply set_str_int.
  - intros i _. destruct ws as [|w [|]]; try discriminate. destruct (algos_arg E ca_only w); [|discriminate]. apply nil_step; [intros ? ? []|]. injection H as <-. apply set_str_int.
  - intros i _. apply nil_step; [intros ? ? []|]. injection H as <-. apply set_str_int.
  - intros i _. apply nil_step; [intros ? ? []|]. cbv zeta in H. match type of H with (if ?b then _ else _) = _ => destruct b; [|discriminate] end. injection H as <-. apply set_str_int.
  - intros i _. apply nil_step; [intros ? ? []|]. match type of H with (if ?b then _ else _) = _ => destruct b; [discriminate|] end. injection H as <-. reflexivity.
  - intros i _. apply nil_step; [intros ? ? []|]. match type of H with (if ?b then _ else _) = _ => destruct b; [discriminate|] end. injection H as <-. reflexivity.
  - intros i _. apply nil_step; [intros ? ? []|]. match type of H with (if ?b then _ else _) = _ => destruct b; [discriminate|] end. injection H as <-. reflexivity.
  - intros i _. apply nil_step; [intros ? ? []|]. destruct (once_loop E k0 ws false []); [|discriminate]. cbn [option_map] in H. injection H as <-. apply once_arr_int.
  - intros i _. apply nil_step; [intros ? ? []|]. destruct ws as [|n r]; [discriminate|]. cbn [do_subsystem negb] in H. destruct (is_nil n); [discriminate|].
    destruct (existsb (beqb n) (firstn (o_nsub o) (o_subname o))); [congruence|]. destruct r as [|c r']; [discriminate|]. destruct (is_nil c); [discriminate|]. cbv zeta in H. injection H as <-. reflexivity.
  - discriminate.
  - discriminate.
  - intros i _. apply nil_step; [intros ? ? []|]. congruence.
  - discriminate.
  - intros i _. apply nil_step; [intros ? ? []|]. destruct (e_other E k rest ws); congruence.
Qed.

(** ** Strings *)
Definition str_step (p : op) (rest : list Z) (ws : list (list Z)) (o o' : opts) (s : sopt) : Prop :=
  (exists v, op_str E p rest ws s v /\ o_str o' s = match o_str o s with None => Some v | x => x end) \/
  ((forall v, ~ op_str E p rest ws s v) /\ o_str o' s = o_str o s).
Lemma set_str_get : forall i v o j, o_str (set_str true i v o) j = if sopt_beq i j then match o_str o j with None => Some v | x => x end else o_str o j.
Proof.
  intros. unfold set_str. cbn [andb]. destruct (sopt_beq i j) eqn:Q.
  - apply sopt_beq_spec in Q. subst j. destruct (o_str o i) eqn:R; [now rewrite R|]. cbn. now rewrite (proj2 (sopt_beq_spec i i) eq_refl).
  - destruct (o_str o i); [reflexivity|]. cbn. now rewrite Q.
Qed.
Lemma sstep : forall p rest ws o i v, (forall j x, op_str E p rest ws j x <-> j = i /\ x = v) -> forall j, str_step p rest ws o (set_str true i v o) j.
Proof.
  intros p rest ws o i v X j. unfold str_step. rewrite set_str_get. destruct (sopt_beq i j) eqn:Q.
  - apply sopt_beq_spec in Q. subst j. left. exists v. split; [now apply X|reflexivity].
  - right. split; [|reflexivity]. intros x Y. apply X in Y. destruct Y as [-> _]. rewrite (proj2 (sopt_beq_spec i i) eq_refl) in Q. discriminate.
Qed.
Lemma set_int_str : forall s v o, o_str (set_int true s v o) = o_str o.
Proof. intros. unfold set_int. destruct (true && (o_int o s =? -1)); reflexivity. Qed.
Lemma once_arr_str : forall a v o, o_str (once_arr true a v o) = o_str o.
Proof. intros. unfold once_arr. destruct (is_nil (o_arr o a) && true); reflexivity. Qed.
Lemma exec_str : forall p k rest ws o o', exec E p k rest ws true o = Some o' -> forall s, str_step p rest ws o o' s.
Proof.
  intros p k rest ws o o' H. 
  assert (NS : (forall s v, ~ op_str E p rest ws s v) -> o_str o' = o_str o -> forall s, str_step p rest ws o o' s).
  { intros A B s. right. split; [apply A|now rewrite B]. }
  destruct p; cbn [exec] in H; try (apply NS; [intros ? ? X; exact X|]; clear NS).
  - destruct ws as [|w [|]]; try discriminate. destruct (state_value t w); [|discriminate]. cbn [option_map] in H. injection H as <-. apply set_int_str.
  - apply do_time_some in H. destruct H as (w & -> & V & ->). apply set_int_str.
  - destruct ws as [|w [|]]; try discriminate. destruct (atoi_err w); [|discriminate]. cbn [option_map] in H. injection H as <-. apply set_int_str.
  - destruct (pubkey_opts ws 0); [|discriminate]. cbn [option_map] in H. injection H as <-. apply set_int_str.
  - destruct ws as [|w [|]]; try discriminate. destruct (exact_value t_tun w); [|discriminate]. cbn [option_map] in H. injection H as <-. apply set_int_str.
  - destruct ws as [|w r]; [discriminate|]. destruct (is_nil w); [discriminate|].
    match type of H with match ?x with _ => _ end = _ => destruct x as [v|]; [|discriminate] end. cbv zeta in H.
    destruct r as [|t r']; [injection H as <-; apply set_int_str|]. destruct (beqb t (bs "none")).
    + destruct (is_nil r'); [|discriminate]. injection H as <-. apply set_int_str.
    + apply do_time_some in H. destruct H as (t' & X & T & ->). now rewrite !set_int_str.
  - destruct ws as [|w [|w2 [|]]]; try discriminate; (destruct (is_nil w); [discriminate|]).
    + destruct (e_ipqos E w); [|discriminate]. cbn [option_map] in H. injection H as <-. reflexivity.
    + destruct (e_ipqos E w); [|discriminate]. destruct (e_ipqos E w2); [|discriminate]. cbn [option_map] in H. injection H as <-. reflexivity.
  - destruct ws as [|w [|]]; try discriminate. destruct (is_nil w); [discriminate|]. destruct (e_octal E w); [|discriminate].
    match type of H with (if ?b then _ else _) = _ => destruct b; [discriminate|] end. injection H as <-. reflexivity.
  - destruct ws as [|w r]; [discriminate|]. destruct (strcaseeq w (bs "none")); [destruct (is_nil r); [|discriminate]; injection H as <-; reflexivity|].
    apply do_time_some in H. destruct H as (? & _ & _ & ->). apply set_int_str.
  - destruct ws as [|w [|]]; try discriminate. destruct (is_nil w); [discriminate|]. injection H as <-. apply sstep. intros j x. cbn [op_str]. split; [intros (-> & w' & A & ->); split; congruence|intros [-> ->]; eauto].
  - destruct ws as [|w [|]]; try discriminate. destruct (is_nil w); [discriminate|]. injection H as <-. apply sstep. intros j x. cbn [op_str]. split; [intros (-> & w' & A & ->); split; congruence|intros [-> ->]; eauto].
  - destruct ws as [|w [|]]; try discriminate. destruct (is_nil w); [discriminate|]. injection H as <-. apply sstep. intros j x. cbn [op_str]. split; [intros (-> & A); split; congruence|intros [-> ->]; eauto].
  - destruct ws as [|w [|]]; try discriminate. destruct (algos_arg E ca_only w); [|discriminate]. injection H as <-. apply sstep. intros j x. cbn [op_str]. split; [intros (-> & A); split; congruence|intros [-> ->]; eauto].
  - injection H as <-. apply sstep. intros j x. cbn [op_str]. tauto.
  - cbv zeta in H. match type of H with (if ?b then _ else _) = _ => destruct b; [|discriminate] end. injection H as <-. apply sstep. intros j x. cbn [op_str]. tauto.
  - match type of H with (if ?b then _ else _) = _ => destruct b; [discriminate|] end. injection H as <-. reflexivity.
  - match type of H with (if ?b then _ else _) = _ => destruct b; [discriminate|] end. injection H as <-. reflexivity.
  - match type of H with (if ?b then _ else _) = _ => destruct b; [discriminate|] end. injection H as <-. reflexivity.
  - destruct (once_loop E k0 ws false []); [|discriminate]. cbn [option_map] in H. injection H as <-. apply once_arr_str.
  - destruct ws as [|n r]; [discriminate|]. cbn [do_subsystem negb] in H. destruct (is_nil n); [discriminate|].
    destruct (existsb (beqb n) (firstn (o_nsub o) (o_subname o))); [congruence|]. destruct r as [|c r']; [discriminate|]. destruct (is_nil c); [discriminate|]. cbv zeta in H. injection H as <-. reflexivity.
  - discriminate.
  - discriminate.
  - congruence.
  - discriminate.
  - destruct (e_other E k rest ws); congruence.
Qed.

(** ** Arrays *)
Lemma once_keys : forall ws b acc l, once_loop E KeysFiles ws b acc = Some l -> l = acc ++ map (e_tilde E) ws /\ l <> [].
Proof.
  induction ws as [|w ws IH]; intros b acc l H; cbn [once_loop] in H.
  - destruct acc; [discriminate|]. injection H as <-. cbn [map]. rewrite app_nil_r. split; [reflexivity|discriminate].
  - destruct (is_nil w); [discriminate|]. apply IH in H. destruct H as [-> H]. split; [|exact H]. now rewrite <- app_assoc.
Qed.
Lemma once_plain : forall q ws b acc l, q = AuthMethods \/ q = Timeouts \/ q = Verbose -> once_loop E q ws b acc = Some l -> l = acc ++ ws /\ l <> [].
Proof.
  intros q. induction ws as [|w ws IH]; intros b acc l D H; cbn [once_loop] in H.
  - destruct acc; [discriminate|]. injection H as <-. rewrite app_nil_r. split; [reflexivity|discriminate].
  - assert (G : forall b', once_loop E q ws b' (acc ++ [w]) = Some l -> l = acc ++ w :: ws /\ l <> []).
    { intros b' X. apply IH in X; [|exact D]. destruct X as [-> X]. split; [|exact X]. now rewrite <- app_assoc. }
    destruct D as [-> | [-> | ->]].
    + destruct (beqb w (bs "any")); [destruct (is_nil acc); [eauto|discriminate]|]. destruct b; [discriminate|]. destruct (e_methods E w); [eauto|discriminate].
    + destruct (strcaseeq w (bs "none")); [destruct (is_nil acc && is_nil ws); [eauto|discriminate]|]. destruct (parse_pattern_interval w); [eauto|discriminate].
    + destruct (is_nil w); [discriminate|]. destruct (strcaseeq w (bs "none") && negb (is_nil acc && is_nil ws)); [discriminate|]. eauto.
Qed.
Lemma once_permit : forall (li : bool) ws b acc l, once_loop E (if li then PermitListen else PermitOpen) ws b acc = Some l ->
  exists l', l = acc ++ l' /\ l <> [] /\ Forall2 (fun w t => (w = bs "any" \/ w = bs "none") /\ t = w \/ w <> bs "any" /\ w <> bs "none" /\ e_permit E li w = Some t) ws l'.
Proof.
  intros li. induction ws as [|w ws IH]; intros b acc l H; cbn [once_loop] in H.
  - destruct acc; [discriminate|]. injection H as <-. exists []. rewrite app_nil_r. split; [reflexivity|]. split; [discriminate|constructor].
  - assert (G : forall t, ((w = bs "any" \/ w = bs "none") /\ t = w \/ w <> bs "any" /\ w <> bs "none" /\ e_permit E li w = Some t) ->
       once_loop E (if li then PermitListen else PermitOpen) ws b (acc ++ [t]) = Some l ->
       exists l', l = acc ++ l' /\ l <> [] /\ Forall2 (fun w t => (w = bs "any" \/ w = bs "none") /\ t = w \/ w <> bs "any" /\ w <> bs "none" /\ e_permit E li w = Some t) (w :: ws) l').
    { intros t T X. apply IH in X. destruct X as (l' & -> & X & Y). exists (t :: l'). split; [now rewrite <- app_assoc|]. split; [exact X|]. now constructor. }
    destruct li; (destruct (beqb w (bs "any") || beqb w (bs "none")) eqn:Q;
      [destruct (is_nil acc); [|discriminate]; apply (G w); [|exact H]; apply orb_true_iff in Q; destruct Q as [Q|Q]; apply beqb_eq in Q; auto|]);
      apply orb_false_iff in Q; destruct Q as [Q1 Q2]; apply beqb_neq in Q1; apply beqb_neq in Q2;
      match type of H with match ?x with _ => _ end = _ => destruct x as [t|] eqn:P; [|discriminate] end; (apply (G t); [|exact H]); auto.
Qed.
Lemma strchr_cut_first : forall c n v, ~ In c n -> strchr_cut c (n ++ c :: v) = Some (n, v).
Proof.
  intros c. induction n as [|x n IH]; intros v H; cbn [app strchr_cut].
  - now rewrite Z.eqb_refl.
  - assert (Q : x =? c = false) by (apply Z.eqb_neq; intros ->; apply H; now left). rewrite Q, IH; [reflexivity|]. intros A. apply H. now right.
Qed.
Lemma env_known_iff : forall n v l seen, ~ In 61 n -> (forall m, In m seen <-> In (Some m) (map env_name l)) -> env_known (n ++ 61 :: v) l = true <-> In n seen.
Proof.
  intros n v l seen H S. unfold env_known. assert (Q : env_name (n ++ 61 :: v) = Some n) by (unfold env_name; now rewrite strchr_cut_first). rewrite Q, S, existsb_exists, in_map_iff. split.
  - intros (x & A & B). exists x. split; [|exact A]. destruct (env_name x); [|discriminate]. apply beqb_eq in B. congruence.
  - intros (x & A & B). exists x. split; [exact B|]. rewrite A. apply beqb_refl.
Qed.
Lemma once_env : forall ws b acc l seen, once_loop E SetEnv ws b acc = Some l -> (forall m, In m seen <-> In (Some m) (map env_name acc)) ->
  exists l', l = acc ++ l' /\ l <> [] /\ first_of_each seen ws l'.
Proof.
  induction ws as [|w ws IH]; intros b acc l seen H S; cbn [once_loop] in H.
  - destruct acc; [discriminate|]. injection H as <-. exists []. rewrite app_nil_r. split; [reflexivity|]. split; [discriminate|constructor].
  - destruct (is_nil w); [discriminate|]. cbn [orb] in H. destruct (env_name w) as [n|] eqn:Q; [|discriminate].
    pose proof (strchr_cut_spec 61 w) as C. unfold env_name in Q. destruct (strchr_cut 61 w) as [[n' v]|]; [|discriminate]. injection Q as <-. destruct C as [-> C].
    pose proof (env_known_iff n' v acc seen C S) as K. destruct (env_known (n' ++ 61 :: v) acc).
    + apply (IH _ _ _ seen) in H; [|exact S]. destruct H as (l' & A & B & D). exists l'. split; [exact A|]. split; [exact B|]. constructor; [exact C|now apply K|exact D].
    + apply (IH _ _ _ (n' :: seen)) in H.
      * destruct H as (l' & A & B & D). exists ((n' ++ 61 :: v) :: l'). split; [rewrite A; now rewrite <- app_assoc|]. split; [exact B|].
        constructor; [exact C|rewrite <- K; discriminate|exact D].
      * intros m. rewrite map_app, in_app_iff, <- S. cbn [In map]. unfold env_name at 1. rewrite strchr_cut_first by exact C. cbn [option_map fst]. split.
        -- intros [-> |A]; auto.
        -- intros [A|[A|[]]]; [auto|]. injection A as ->. auto.
Qed.
Lemma first_of_each_fun : forall seen ws l1, first_of_each seen ws l1 -> forall l2, first_of_each seen ws l2 -> l1 = l2.
Proof.
  assert (U : forall n v n' v', ~ In 61 n -> ~ In 61 n' -> n ++ 61 :: v = n' ++ 61 :: v' -> n = n' /\ v = v').
  { intros n v n' v' A B Q. pose proof (strchr_cut_first 61 n v A) as X. rewrite Q, (strchr_cut_first 61 n' v' B) in X. split; congruence. }
  intros seen ws l1 H. induction H as [seen|seen n v ws l A B C IH|seen n v ws l A B C IH]; intros l2 H2.
  - now inversion H2.
  - inversion H2 as [|? n' v' ? l' A' B' C' S Q R|? n' v' ? l' A' B' C' S Q R]; subst; destruct (U _ _ _ _ A' A Q) as [-> ->].
    + f_equal. now apply IH.
    + contradiction.
  - inversion H2 as [|? n' v' ? l' A' B' C' S Q R|? n' v' ? l' A' B' C' S Q R]; subst; destruct (U _ _ _ _ A' A Q) as [-> ->].
    + contradiction.
    + now apply IH.
Qed.
Lemma permit_fun : forall (li : bool) ws l1, Forall2 (fun w t => (w = bs "any" \/ w = bs "none") /\ t = w \/ w <> bs "any" /\ w <> bs "none" /\ e_permit E li w = Some t) ws l1 ->
  forall l2, Forall2 (fun w t => (w = bs "any" \/ w = bs "none") /\ t = w \/ w <> bs "any" /\ w <> bs "none" /\ e_permit E li w = Some t) ws l2 -> l1 = l2.
Proof.
  intros li ws l1 H. induction H as [|w t ws l A B IH]; intros l2 H2; inversion H2 as [|? t' ? l' A' B']; subst; [reflexivity|].
  f_equal; [|now apply IH]. destruct A as [[A ->]|(A1 & A2 & A3)], A' as [[A' ->]|(A1' & A2' & A3')]; try reflexivity; try congruence; intuition congruence.
Qed.

Definition arr_step (p : op) (ws : list (list Z)) (o o' : opts) (a : aopt) : Prop :=
  (exists v, op_arr E p ws a v /\ o_arr o' a = (if is_growing a then o_arr o a ++ v else if is_nil (o_arr o a) then v else o_arr o a) /\ v <> []) \/
  ((forall v, ~ op_arr E p ws a v) /\ o_arr o' a = o_arr o a).
Definition grow_op (p : op) : bool := match p with OUsers a | OGroups a => is_growing a | OOnce a _ => negb (is_growing a) | _ => true end.
Lemma table_grow : forallb (fun '(n, p, _) => grow_op p) keywords = true.
Proof. vm_compute. reflexivity. Qed.
Lemma keyword_grow : forall k p m, find_keyword keywords k = Some (p, m) -> grow_op p = true.
Proof.
  intros k p m H. destruct (find_keyword_in _ _ _ _ H) as (n & A & B). pose proof table_grow as T. rewrite forallb_forall in T. exact (T _ A).
Qed.
Lemma app_step : forall p a ws o, is_growing a = true -> ws <> [] -> (forall b v, op_arr E p ws b v <-> b = a /\ v = ws) -> forall b, arr_step p ws o (append_arr true a ws o) b.
Proof.
  intros p a ws o G N X b. unfold arr_step. cbn. destruct (aopt_beq a b) eqn:Q.
  - apply aopt_beq_spec in Q. subst b. left. exists ws. rewrite G. split; [now apply X|]. auto.
  - right. split; [|reflexivity]. intros v Y. apply X in Y. destruct Y as [-> _]. rewrite (proj2 (aopt_beq_spec a a) eq_refl) in Q. discriminate.
Qed.
Lemma set_int_arr : forall s v o, o_arr (set_int true s v o) = o_arr o.
Proof. intros. unfold set_int. destruct (true && (o_int o s =? -1)); reflexivity. Qed.
Lemma set_str_arr : forall s v o, o_arr (set_str true s v o) = o_arr o.
Proof. intros. unfold set_str. destruct (o_str o s); reflexivity. Qed.
Lemma exec_arr : forall p k rest ws o o' m, find_keyword keywords k = Some (p, m) -> exec E p k rest ws true o = Some o' -> forall a, arr_step p ws o o' a.
Proof.
  intros p k rest ws o o' m F H. pose proof (keyword_grow _ _ _ F) as G. clear F.
  assert (NS : (forall s v, ~ op_arr E p ws s v) -> o_arr o' = o_arr o -> forall s, arr_step p ws o o' s).
  { intros A B s. right. split; [apply A|now rewrite B]. }
  destruct p; cbn [exec] in H; cbn [grow_op] in G; try (apply NS; [intros ? ? X; exact X|]; clear NS).
  - destruct ws as [|w [|]]; try discriminate. destruct (state_value t w); [|discriminate]. cbn [option_map] in H. injection H as <-. apply set_int_arr.
  - apply do_time_some in H. destruct H as (w & -> & V & ->). apply set_int_arr.
  - destruct ws as [|w [|]]; try discriminate. destruct (atoi_err w); [|discriminate]. cbn [option_map] in H. injection H as <-. apply set_int_arr.
  - destruct (pubkey_opts ws 0); [|discriminate]. cbn [option_map] in H. injection H as <-. apply set_int_arr.
  - destruct ws as [|w [|]]; try discriminate. destruct (exact_value t_tun w); [|discriminate]. cbn [option_map] in H. injection H as <-. apply set_int_arr.
  - destruct ws as [|w r]; [discriminate|]. destruct (is_nil w); [discriminate|].
    match type of H with match ?x with _ => _ end = _ => destruct x as [v|]; [|discriminate] end. cbv zeta in H.
    destruct r as [|t r']; [injection H as <-; apply set_int_arr|]. destruct (beqb t (bs "none")).
    + destruct (is_nil r'); [|discriminate]. injection H as <-. apply set_int_arr.
    + apply do_time_some in H. destruct H as (t' & X & T & ->). now rewrite !set_int_arr.
  - destruct ws as [|w [|w2 [|]]]; try discriminate; (destruct (is_nil w); [discriminate|]).
    + destruct (e_ipqos E w); [|discriminate]. cbn [option_map] in H. injection H as <-. reflexivity.
    + destruct (e_ipqos E w); [|discriminate]. destruct (e_ipqos E w2); [|discriminate]. cbn [option_map] in H. injection H as <-. reflexivity.
  - destruct ws as [|w [|]]; try discriminate. destruct (is_nil w); [discriminate|]. destruct (e_octal E w); [|discriminate].
    match type of H with (if ?b then _ else _) = _ => destruct b; [discriminate|] end. injection H as <-. reflexivity.
  - destruct ws as [|w r]; [discriminate|]. destruct (strcaseeq w (bs "none")); [destruct (is_nil r); [|discriminate]; injection H as <-; reflexivity|].
    apply do_time_some in H. destruct H as (? & _ & _ & ->). apply set_int_arr.
  - destruct ws as [|w [|]]; try discriminate. destruct (is_nil w); [discriminate|]. injection H as <-. apply set_str_arr.
  - destruct ws as [|w [|]]; try discriminate. destruct (is_nil w); [discriminate|]. injection H as <-. apply set_str_arr.
  - destruct ws as [|w [|]]; try discriminate. destruct (is_nil w); [discriminate|]. injection H as <-. apply set_str_arr.
  - destruct ws as [|w [|]]; try discriminate. destruct (algos_arg E ca_only w); [|discriminate]. injection H as <-. apply set_str_arr.
  - injection H as <-. apply set_str_arr.
  - cbv zeta in H. match type of H with (if ?b then _ else _) = _ => destruct b; [|discriminate] end. injection H as <-. apply set_str_arr.
  - destruct ws as [|w ws]; [discriminate|]. match type of H with (if ?b then _ else _) = _ => destruct b; [discriminate|] end. injection H as <-. apply app_step; [exact G|discriminate|]. intros b v. cbn [op_arr]. tauto.
  - destruct ws as [|w ws]; [discriminate|]. match type of H with (if ?b then _ else _) = _ => destruct b; [discriminate|] end. injection H as <-. apply app_step; [exact G|discriminate|]. intros b v. cbn [op_arr]. tauto.
  - destruct ws as [|w ws]; [discriminate|]. match type of H with (if ?b then _ else _) = _ => destruct b; [discriminate|] end. injection H as <-. apply app_step; [reflexivity|discriminate|]. intros b v. cbn [op_arr]. tauto.
  - destruct (once_loop E k0 ws false []) as [l|] eqn:Q; [|discriminate]. cbn [option_map] in H. injection H as <-.
    assert (X : op_arr E (OOnce a k0) ws a l /\ l <> []).
    { destruct k0; cbn [op_arr].
      - apply once_keys in Q. destruct Q as [-> Q]. auto.
      - apply (once_env _ _ _ _ []) in Q; [|intros m0; cbn; tauto]. destruct Q as (l' & -> & A & B). auto.
      - apply once_plain in Q; [|auto]. destruct Q as [-> Q]. auto.
      - apply (once_permit true) in Q. destruct Q as (l' & -> & A & B). auto.
      - apply (once_permit false) in Q. destruct Q as (l' & -> & A & B). auto.
      - apply once_plain in Q; [|auto]. destruct Q as [-> Q]. auto.
      - apply once_plain in Q; [|auto]. destruct Q as [-> Q]. auto. }
    destruct X as [X N]. intros b. unfold arr_step, once_arr. rewrite andb_true_r. destruct (aopt_beq a b) eqn:R.
    + apply aopt_beq_spec in R. subst b. left. exists l. split; [exact X|]. split; [|exact N]. apply negb_true_iff in G. rewrite G.
      destruct (is_nil (o_arr o a)) eqn:T; [|reflexivity]. cbn. now rewrite (proj2 (aopt_beq_spec a a) eq_refl).
    + right. split; [intros v (-> & _); rewrite (proj2 (aopt_beq_spec a a) eq_refl) in R; discriminate|]. destruct (is_nil (o_arr o a)); [|reflexivity]. cbn. now rewrite R.
  - destruct ws as [|n r]; [discriminate|]. cbn [do_subsystem negb] in H. destruct (is_nil n); [discriminate|].
    destruct (existsb (beqb n) (firstn (o_nsub o) (o_subname o))); [congruence|]. destruct r as [|c r']; [discriminate|]. destruct (is_nil c); [discriminate|]. cbv zeta in H. injection H as <-. reflexivity.
  - discriminate.
  - discriminate.
  - congruence.
  - discriminate.
  - destruct (e_other E k rest ws); congruence.
Qed.

(** ** Each directive gives an option one value at most *)
Lemma op_int_fun : forall p ws i v1 v2, op_int E p ws i v1 -> op_int E p ws i v2 -> v1 = v2.
Proof.
  intros p ws i v1 v2 A B. destruct p; cbn [op_int] in A, B; try contradiction.
  - destruct A as (-> & w & -> & A), B as (_ & w' & B & B'). congruence.
  - destruct A as (-> & w & -> & A & _), B as (_ & w' & B & B' & _). congruence.
  - destruct A as (-> & w & -> & A), B as (_ & w' & B & B'). congruence.
  - destruct A, B. congruence.
  - destruct A as (-> & w & -> & A), B as (_ & w' & B & B'). congruence.
  - destruct A as [(-> & w & r & -> & A)|(-> & w & t & -> & A1 & A2 & A3)], B as [(B & w' & r' & X & B')|(B & w' & t' & X & B1 & B2 & B3)]; try discriminate.
    + injection X as <- <-. destruct A as [[A ->]|[A A']], B' as [[B' ->]|[B' B'']]; congruence.
    + congruence.
  - destruct A as [(-> & w & r & -> & A)|(-> & w & [-> |(w1 & ->)] & A)], B as [(B & w' & r' & X & B')|(B & w' & [X|(w1' & X)] & B')]; congruence.
  - destruct A as (-> & _ & w & -> & A), B as (_ & _ & w' & B & B'). congruence.
  - destruct A as (-> & w & -> & A), B as (_ & w' & B & B'). injection B as <-. destruct A as [[A ->]|(A & A' & _)], B' as [[B' ->]|(B' & B'' & _)]; congruence.
Qed.
Lemma op_str_fun : forall p rest ws i v1 v2, op_str E p rest ws i v1 -> op_str E p rest ws i v2 -> v1 = v2.
Proof.
  intros p rest ws i v1 v2 A B. destruct p; cbn [op_str] in A, B; try contradiction.
  - destruct A as (_ & w & -> & ->), B as (_ & w' & B & ->). congruence.
  - destruct A as (_ & w & -> & ->), B as (_ & w' & B & ->). congruence.
  - destruct A as (_ & ->), B as (_ & B). congruence.
  - destruct A as (_ & ->), B as (_ & B). congruence.
  - destruct A as (_ & ->), B as (_ & ->). reflexivity.
  - destruct A as (_ & ->), B as (_ & ->). reflexivity.
Qed.
Lemma op_arr_fun : forall p ws i v1 v2, op_arr E p ws i v1 -> op_arr E p ws i v2 -> v1 = v2.
Proof.
  intros p ws i v1 v2 A B. destruct p; cbn [op_arr] in A, B; try contradiction; destruct A as [_ A], B as [_ B]; try congruence.
  destruct k; try congruence; [eapply first_of_each_fun; eauto|eapply (permit_fun true); eauto|eapply (permit_fun false); eauto].
Qed.
End Exec.
