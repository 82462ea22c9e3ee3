From Coq Require Import String Permutation Sorting.Sorted.
From Verif Require Import Base Bits AddrModel AddrSpec AddrProof SrclimitModel SrclimitSpec SrclimitProof SrclimitProof2 SrclimitProof3.
Local Open Scope Z_scope.

(** * The scan over children *)
Lemma scan_count : forall ks i xb first count, snd (scan ks i xb first count) = count + zlen (filter (fun k => negb (fst k =? -1) && (addr_cmp (snd k) xb =? 0)) ks).
Proof.
  induction ks as [|[id ad] ks IH]; intros i xb first count; cbn [scan filter fst snd]; [rewrite zlen_nil; lia|]. destruct (id =? -1); cbn [negb andb]; [apply IH|]. destruct (addr_cmp ad xb =? 0); [rewrite IH, zlen_cons; lia|apply IH].
Qed.
Lemma scan_past : forall ks i xb first count, first <= i -> fst (scan ks i xb first count) = first.
Proof.
  induction ks as [|[id ad] ks IH]; intros i xb first count H; cbn [scan]; [reflexivity|]. destruct (id =? -1); [replace (i <? first) with false by lia; apply IH; lia|]. destruct (addr_cmp ad xb =? 0); apply IH; lia.
Qed.
Lemma scan_first : forall ks i xb first count, i + zlen ks <= first ->
  (Forall (fun k => fst k <> -1) ks /\ fst (scan ks i xb first count) = first) \/
  (exists l1 a l2, ks = l1 ++ (-1, a) :: l2 /\ Forall (fun k => fst k <> -1) l1 /\ fst (scan ks i xb first count) = i + zlen l1).
Proof.
  induction ks as [|[id ad] ks IH]; intros i xb first count H; cbn [scan]; [left; split; [constructor|reflexivity]|]. rewrite zlen_cons in H. pose proof (zlen_nonneg _ ks). destruct (id =? -1) eqn:E.
  - right. exists [], ad, ks. split; [cbn [app]; apply Z.eqb_eq in E; now rewrite E|]. split; [constructor|]. replace (i <? first) with true by lia. rewrite scan_past by lia. rewrite zlen_nil. lia.
  - assert (G : forall count', (Forall (fun k => fst k <> -1) ((id, ad) :: ks) /\ fst (scan ks (i + 1) xb first count') = first) \/
      (exists l1 a l2, (id, ad) :: ks = l1 ++ (-1, a) :: l2 /\ Forall (fun k => fst k <> -1) l1 /\ fst (scan ks (i + 1) xb first count') = i + zlen l1)).
    { intros count'. destruct (IH (i + 1) xb first count') as [[F S]|(l1 & a & l2 & -> & F & S)]; [lia| |].
      - left. split; [constructor; [cbn [fst]; lia|exact F]|exact S].
      - right. exists ((id, ad) :: l1), a, l2. split; [reflexivity|]. split; [constructor; [cbn [fst]; lia|exact F]|]. rewrite S, zlen_cons. lia. }
    destruct (addr_cmp ad xb =? 0); apply G.
Qed.
Lemma set_at_mid : forall l1 x l2 v, set_at (length l1) v (l1 ++ x :: l2) = l1 ++ v :: l2.
Proof. induction l1 as [|y l1 IH]; intros; cbn [length set_at app]; [reflexivity|]. now rewrite IH. Qed.
Lemma set_at_len : forall n v l, length (set_at n v l) = length l.
Proof. induction n as [|n IH]; intros v [|x l]; cbn [set_at length]; try reflexivity. now rewrite IH. Qed.
Lemma clear_len : forall id l, length (clear_id id l) = length l.
Proof. induction l as [|[i a] l IH]; cbn [clear_id length]; [reflexivity|]. destruct (i =? id); cbn [length]; [reflexivity|now rewrite IH]. Qed.

Section Env.
Variable ntop : xaddr -> option (list Z).
Variable pton : list Z -> option xaddr.
Variable c : config.
Hypothesis Hc : cfg_ok c.
Notation owed := (owed ntop pton c).
Notation offence := (offence ntop pton c).
Notation lk := (lk c).

Definition kinv (s : state) : Prop := c_max_persource c = INT_MAX \/ zlen (kids s) = c_max_children c.
Definition good (s : state) : Prop := sinv c s /\ masked c s /\ kinv s.
Lemma allow_ok : forall s peer id, good s -> exists b s', srclimit_check_allow ntop c s peer id = Some (b, s') /\ t4 s' = t4 s /\ t6 s' = t6 s /\ kinv s'.
Proof.
  intros s peer id (_ & _ & K). unfold srclimit_check_allow. destruct (c_max_persource c =? INT_MAX) eqn:E; [exists true, s; auto|]. destruct K as [K|K]; [lia|]. assert (Kk : kinv s) by now right.
  destruct peer as [a|]; [|exists true, s; auto]. destruct (srclimit_mask_addr a _) as [xb|]; [|exists true, s; auto]. destruct (scan_first (kids s) 0 xb (c_max_children c) 0) as [[F S]|(l1 & a0 & l2 & El & F & S)]; [lia| |].
  - destruct (scan _ _ _ _ _) as [first count]. cbn [fst] in S. destruct (ntop a); [|exists true, s; auto]. replace (first =? c_max_children c) with true by lia. exists false, s. auto.
  - destruct (scan _ _ _ _ _) as [first count]. cbn [fst] in S. destruct (ntop a); [|exists true, s; auto]. pose proof (zlen_nonneg _ l1). pose proof (zlen_nonneg _ l2). assert (first < c_max_children c) by (rewrite <- K, El, zlen_app, zlen_cons; lia).
    replace (first =? c_max_children c) with false by lia. replace (first <? 0) with false by lia. replace (first >=? c_max_children c) with false by lia. cbn [orb]. destruct (count >=? c_max_persource c); [exists false, s; auto|]. eexists true, _. split; [reflexivity|]. split; [reflexivity|]. split; [reflexivity|]. right. cbn [kids]. unfold zlen in *. now rewrite set_at_len.
Qed.
Lemma good_tabs : forall s s', good s -> t4 s' = t4 s -> t6 s' = t6 s -> kinv s' -> good s'.
Proof.
  intros s s' (I & M & _) E4 E6 K. assert (T : forall f, tab s' f = tab s f) by (intros []; assumption). split; [intros f; rewrite T; apply I|]. split; [|exact K]. intros f p. rewrite T. apply M.
Qed.
Lemma done_kinv : forall s id, kinv s -> kinv (srclimit_done c s id).
Proof. intros s id K. unfold srclimit_done. destruct (_ =? _) eqn:E; [exact K|]. destruct K as [K|K]; [lia|]. right. cbn [kids]. unfold zlen in *. now rewrite clear_len. Qed.
Lemma init_good : exists s, srclimit_init c = Some s /\ good s /\ forall a, lk s a = None.
Proof.
  unfold srclimit_init. destruct Hc as (_ & _ & H3 & H4 & H5). replace (c_max4 c <? 0) with false by lia. replace (c_max6 c <? 0) with false by lia. cbn [orb].
  assert (G : forall ks, kinv (mkS empty_table empty_table ks) -> good (mkS empty_table empty_table ks) /\ forall a, lk (mkS empty_table empty_table ks) a = None).
  { intros ks K. split; [|intros a; unfold SrclimitProof3.lk; destruct (srclimit_mask_addr a _); [destruct (x_af a); reflexivity|reflexivity]].
    split; [intros []; split; try apply empty_inv; cbn; assumption|]. split; [intros [] p []|exact K]. }
  destruct (c_max_persource c =? INT_MAX) eqn:E; [eexists; split; [reflexivity|apply G; left; lia]|]. destruct H5 as [H5|H5]; [lia|]. replace (c_max_children c <=? 0) with false by lia. eexists. split; [reflexivity|]. apply G. right. cbn [kids]. unfold zlen. rewrite repeat_length. lia.
Qed.

Lemma masked_expire : forall s s1 now, sinv c s -> masked c s -> expire_penalties now s = Some s1 -> masked c s1.
Proof.
  intros s s1 now I M E f p Hp. apply M. destruct (expire_all c s now I) as (s' & E' & _ & _ & P). assert (s' = s1) as -> by congruence. apply (Permutation_in _ (P f)) in Hp. apply filter_In in Hp. apply Hp.
Qed.
Lemma step_good : forall s k, good s -> call_ok k -> exists o s', step ntop pton c s k = Some (o, s') /\ good s'.
Proof.
  intros s k G Ok. pose proof G as (I & M & K). destruct k as [a ty now|peer now|peer id|id]; cbn [step call_ok] in *.
  - destruct Ok as [Wa Ht]. destruct (counts ntop pton c a ty) eqn:C.
    + destruct (penalise_lk ntop pton c Hc s a ty now I M Wa Ht C) as (s' & s1 & E & I' & M' & K' & _). rewrite E. exists None, s'. split; [reflexivity|]. split; [exact I'|]. split; [exact M'|]. unfold kinv. now rewrite K'.
    + destruct (penalise_spec ntop pton c s a ty now Hc I Wa Ht) as (s' & E & _ & _ & [[_ ->]|[Q _]]); [|congruence]. rewrite E. exists None, s. auto.
  - destruct peer as [a|]; [|unfold srclimit_penalty_check_allow; destruct (negb _); eexists _, s; split; try reflexivity; exact G].
    destruct (check_spec ntop pton c s a now Hc I Ok) as (m & ans & s' & _ & E & I' & K' & Cs). rewrite E. exists (Some ans), s'. split; [reflexivity|]. split; [exact I'|]. split; [|unfold kinv; now rewrite K'].
    destruct Cs as [(_ & _ & ->)|(_ & Ee & _)]; [exact M|]. exact (masked_expire s s' now I M Ee).
  - destruct (allow_ok s peer id G) as (b & s' & E & E4 & E6 & K'). rewrite E. exists (Some b), s'. split; [reflexivity|]. exact (good_tabs s s' G E4 E6 K').
  - exists None, (srclimit_done c s id). split; [reflexivity|]. apply (good_tabs s); auto; try (unfold srclimit_done; destruct (_ =? _); reflexivity). now apply done_kinv.
Qed.
Lemma play_good : forall h s, good s -> Forall call_ok h -> exists os s', play ntop pton c s h = Some (os, s') /\ good s' /\ length os = length h.
Proof.
  induction h as [|k h IH]; intros s G F; cbn [play]; [exists [], s; auto|]. apply Forall_cons_iff in F. destruct F as [F1 F2]. destruct (step_good s k G F1) as (o & s1 & E & G1). rewrite E. destruct (IH s1 G1 F2) as (os & s2 & E2 & G2 & L). rewrite E2. exists (o :: os), s2. split; [reflexivity|]. split; [exact G2|]. cbn [length]. now rewrite L.
Qed.
Lemma play_app : forall h s h', play ntop pton c s (h ++ h') = match play ntop pton c s h with None => None | Some (os, s1) => match play ntop pton c s1 h' with None => None | Some (os', s2) => Some (os ++ os', s2) end end.
Proof.
  induction h as [|k h IH]; intros s h'; cbn [play app]; [destruct (play ntop pton c s h') as [[]|]; reflexivity|]. destruct (step ntop pton c s k) as [[o s1]|]; [|reflexivity]. rewrite IH. destruct (play ntop pton c s1 h) as [[os s2]|]; [|reflexivity]. destruct (play ntop pton c s2 h') as [[]|]; reflexivity.
Qed.
Definition last_time (t0 : Z) (h : list call) : Z := fold_left (fun t k => match time_of k with Some t' => t' | None => t end) h t0.
Lemma clock_snoc : forall h t0 k, clock t0 (h ++ [k]) -> clock t0 h /\ match time_of k with Some t => last_time t0 h <= t | None => True end.
Proof.
  induction h as [|k' h IH]; intros t0 k H; cbn [app clock] in *; [cbn [last_time fold_left]; destruct (time_of k); [split; [exact I|apply H]|auto]|]. unfold last_time in *. cbn [fold_left]. destruct (time_of k'); [destruct H as [H1 H2]; apply IH in H2; intuition|apply IH in H; intuition].
Qed.
Lemma last_snoc : forall h t0 k, last_time t0 (h ++ [k]) = match time_of k with Some t => t | None => last_time t0 h end.
Proof. intros. unfold last_time. rewrite fold_left_app. reflexivity. Qed.

(** What one step does to every address: the old value [v] if it is still
    live, possibly replaced. *)
Definition seen (s : state) (a : xaddr) : option (Z * bool) := option_map pair_of (lk s a).
Lemma seen_expire : forall s s1 now a, sinv c s -> wf a -> expire_penalties now s = Some s1 -> seen s1 a = live now (seen s a).
Proof.
  intros s s1 now a I Wa E. destruct (lk_expire ntop c Hc s s1 now a I Wa E) as (_ & _ & L). unfold seen. rewrite L. destruct (lk s a) as [p|]; [|reflexivity]. cbn [option_map pair_of live]. destruct (p_expiry p <? now); reflexivity.
Qed.
Lemma more_bump : forall p ty now, p_expiry p <? now = false -> Some (pair_of (pen_more c p ty now)) = bump c now (charge c ty) (Some (pair_of p)).
Proof. intros p ty now H. unfold bump. cbn [live pair_of]. rewrite H. reflexivity. Qed.
Lemma after_bump : forall s s1 b ty now a, sinv c s -> wf a -> expire_penalties now s = Some s1 ->
  after c s1 b ty now a = if same_sourceb c a b then bump c now (charge c ty) (seen s a) else live now (seen s a).
Proof.
  intros s s1 b ty now a I Wa E. unfold after. rewrite <- (seen_expire s s1 now a I Wa E). destruct (same_sourceb c a b); [|reflexivity].
  destruct (lk_expire ntop c Hc s s1 now a I Wa E) as (_ & _ & L). unfold bump. rewrite <- (seen_expire s s1 now a I Wa E). unfold seen. destruct (lk s1 a) as [p|]; [|reflexivity]. cbn [option_map pair_of]. reflexivity.
Qed.
Definition touched (s : state) (k : call) (a : xaddr) (w : option (Z * bool)) : Prop :=
  match time_of k with
  | None => w = seen s a
  | Some t => w = seen s a /\ offence a k = None \/ w = live t (seen s a) \/
              exists secs, offence a k = Some (t, secs) /\ (w = bump c t secs (seen s a) \/ w = None)
              \/ w = None
  end.
Lemma step_touched : forall s k o s' a, good s -> call_ok k -> step ntop pton c s k = Some (o, s') -> wf a -> touched s k a (seen s' a).
Proof.
  intros s k o s' a G Ok E Wa. pose proof G as (I & M & K). unfold touched. destruct k as [b ty now|peer now|peer id|id]; cbn [step call_ok time_of] in *.
  - destruct Ok as [Wb Ht]. rewrite offence_pen. destruct (counts ntop pton c b ty) eqn:C.
    + destruct (penalise_lk ntop pton c Hc s b ty now I M Wb Ht C) as (s2 & s1 & E2 & I' & M' & K' & Ee & Cs). rewrite E2 in E. injection E as _ <-. cbn [andb]. destruct Cs as [(-> & _)|[A|(_ & _ & _ & v & Vv & Nv & A)]].
      * right. left. now apply seen_expire.
      * rewrite (A a Wa : seen s2 a = _). rewrite (after_bump s s1 b ty now a I Wa Ee). destruct (same_sourceb c a b); [right; right; exists (charge c ty); left; split; [reflexivity|now left]|right; now left].
      * assert (Dec : (x_af a = x_af b /\ own c a v) \/ ~ (x_af a = x_af b /\ own c a v)).
        { unfold own. destruct (mask_spec c a Hc Wa) as (m & Em & _). rewrite Em. destruct (fam_eqb (x_af a) (x_af b)) eqn:Ef; [apply fam_eqb_eq in Ef|right; intros [Q _]; apply fam_eqb_eq in Q; congruence].
          destruct (Z.eq_dec (addr_cmp m (p_addr v)) 0) as [Q|Q]; [left; split; [exact Ef|exists m; auto]|right; intros [_ (m' & Em' & Q')]; congruence]. }
        destruct Dec as [[D1 D2]|D].
        -- right. right. exists 0. right. unfold seen. now rewrite (Nv a Wa D2 D1).
        -- rewrite (A a Wa D : seen s2 a = _). rewrite (after_bump s s1 b ty now a I Wa Ee). destruct (same_sourceb c a b); [right; right; exists (charge c ty); left; split; [reflexivity|now left]|right; now left].
    + destruct (penalise_spec ntop pton c s b ty now Hc I Wb Ht) as (s2 & E2 & _ & _ & [[_ ->]|[Q _]]); [|congruence]. rewrite E2 in E. injection E as _ <-. left. auto.
  - destruct peer as [b|]; [|unfold srclimit_penalty_check_allow in E; destruct (negb _); injection E as _ <-; left; auto].
    destruct (check_spec ntop pton c s b now Hc I Ok) as (m & ans & s2 & _ & E2 & _ & _ & Cs). rewrite E2 in E. injection E as _ <-. destruct Cs as [(_ & _ & ->)|(_ & Ee & _)]; [left; auto|]. right. left. now apply seen_expire.
  - destruct (allow_ok s peer id G) as (b & s2 & E2 & E4 & E6 & _). rewrite E2 in E. injection E as _ <-. unfold seen, SrclimitProof3.lk. destruct (srclimit_mask_addr a _); [|reflexivity]. destruct (x_af a); cbn [tab]; congruence.
  - injection E as _ <-. unfold seen, SrclimitProof3.lk, srclimit_done. destruct (_ =? INT_MAX); [reflexivity|]. destruct (srclimit_mask_addr a _); [|reflexivity]. destruct (x_af a); reflexivity.
Qed.

(** Histories, from the right. *)
Lemma session_snoc : forall h k os s, session ntop pton c (h ++ [k]) = Some (os, s) ->
  exists os' o s', session ntop pton c h = Some (os', s') /\ step ntop pton c s' k = Some (o, s) /\ os = os' ++ [o].
Proof.
  intros h k os s E. unfold session in *. destruct (srclimit_init c) as [s0|]; [|discriminate]. rewrite play_app in E. destruct (play ntop pton c s0 h) as [[os' s']|]; [|discriminate]. cbn [play] in E. destruct (step ntop pton c s' k) as [[o s2]|] eqn:Ek; [|discriminate]. injection E as <- <-. exists os', o, s'. auto.
Qed.
Lemma session_good : forall h, Forall call_ok h -> exists os s, session ntop pton c h = Some (os, s) /\ good s /\ length os = length h.
Proof. intros h F. unfold session. destruct init_good as (s0 & E & G & _). rewrite E. now apply play_good. Qed.
Lemma pointwise : forall (P : list call -> Z -> option (Z * bool) -> Prop) a t0, wf a ->
  P [] t0 None ->
  (forall h t v k, P h t v -> time_of k = None -> P (h ++ [k]) t v) ->
  (forall h t v k t', P h t v -> time_of k = Some t' -> t <= t' -> offence a k = None -> P (h ++ [k]) t' v) ->
  (forall h t v k t', P h t v -> time_of k = Some t' -> t <= t' -> P (h ++ [k]) t' (live t' v)) ->
  (forall h t v k t' secs, P h t v -> offence a k = Some (t', secs) -> t <= t' -> P (h ++ [k]) t' (bump c t' secs v)) ->
  (forall h t v k t', P h t v -> time_of k = Some t' -> t <= t' -> P (h ++ [k]) t' None) ->
  forall h os s, Forall call_ok h -> clock t0 h -> session ntop pton c h = Some (os, s) -> P h (last_time t0 h) (seen s a).
Proof.
  intros P a t0 Wa P0 P1 P2 P3 P4 P5. induction h as [|k h IH] using rev_ind; intros os s F C E.
  - unfold session in E. destruct init_good as (s0 & E0 & _ & L0). rewrite E0 in E. cbn [play] in E. injection E as <- <-. unfold seen. rewrite L0. exact P0.
  - apply Forall_app in F. destruct F as [F Fk]. apply Forall_inv in Fk. apply clock_snoc in C. destruct C as [C Ck]. destruct (session_snoc h k os s E) as (os' & o & s' & E' & Ek & _).
    destruct (session_good h F) as (os2 & s2 & E2 & G & _). assert (s2 = s') as -> by congruence. specialize (IH os' s' F C E'). pose proof (step_touched s' k o s a G Fk Ek Wa) as T. unfold touched in T. rewrite last_snoc. destruct (time_of k) as [t|] eqn:Tk.
    + destruct T as [[T O]|[T|(secs & [(O & [T|T])|T])]]; rewrite T; eauto.
    + rewrite T. eauto.
Qed.

(** * Causes *)
Definition cause (a : xaddr) (h : list call) (v : option (Z * bool)) : Prop :=
  forall e act, v = Some (e, act) -> exists k t secs, In k h /\ offence a k = Some (t, secs) /\ e <= t + Z.max (c_max c) secs.
Lemma cause_more : forall a h k v, cause a h v -> cause a (h ++ [k]) v.
Proof. intros a h k v H e act E. destruct (H e act E) as (k' & t & secs & Hk & R). exists k', t, secs. split; [apply in_app_iff; now left|exact R]. Qed.
Lemma causes : forall a t0 h os s, wf a -> Forall call_ok h -> clock t0 h -> session ntop pton c h = Some (os, s) -> cause a h (seen s a).
Proof.
  intros a t0 h os s Wa F C E. apply (pointwise (fun h _ v => cause a h v) a t0 Wa) with (h := h) (os := os); auto.
  - intros e act Q. discriminate.
  - intros. now apply cause_more.
  - intros. now apply cause_more.
  - intros h' t v k t' H _ _. intros e act Q. apply (cause_more a h' k v H e act). destruct v as [[e0 a0]|]; [|discriminate]. cbn [live] in Q. destruct (e0 <? t'); [discriminate|exact Q].
  - intros h' t v k t' secs H O _ e act Q. exists k, t', secs. split; [apply in_app_iff; right; now left|]. split; [exact O|]. unfold bump in Q. destruct (live t' v) as [[e0 a0]|]; injection Q as <- <-; lia.
  - intros. intros e act Q. discriminate.
Qed.

(** * Nobody is refused who does not owe *)
Hypothesis Hd : durations_ok c.
Lemma offence_time : forall a k t secs, offence a k = Some (t, secs) -> time_of k = Some t /\ exists ty, secs = charge c ty.
Proof. intros a [b ty now|peer now|peer id|id] t secs H; cbn [SrclimitSpec.offence time_of] in *; try discriminate. destruct (_ && _); [|discriminate]. injection H as <- <-. split; [reflexivity|exists ty; reflexivity]. Qed.
Definition under (a : xaddr) (h : list call) (t : Z) (v : option (Z * bool)) : Prop :=
  (forall e act, owed h a = Some (e, act) -> e <= t + c_max c) /\
  forall e act, v = Some (e, act) -> t <= e -> exists e' act', owed h a = Some (e', act') /\ e <= e' /\ (act = true -> act' = true).
Lemma owed_other : forall a h k, offence a k = None -> owed (h ++ [k]) a = owed h a.
Proof. intros a h k H. rewrite (owed_snoc ntop pton c). now rewrite H. Qed.
Lemma owed_cap : forall a h k t t', capped c -> (forall e act, owed h a = Some (e, act) -> e <= t + c_max c) -> t <= t' -> time_of k = Some t' -> forall e act, owed (h ++ [k]) a = Some (e, act) -> e <= t' + c_max c.
Proof.
  intros a h k t t' Hcap H L T e act Q. rewrite (owed_snoc ntop pton c) in Q. destruct (offence a k) as [[t2 secs]|] eqn:O; [|specialize (H e act Q); lia].
  destruct (offence_time a k t2 secs O) as [T2 (ty & ->)]. assert (t2 = t') as -> by congruence. unfold bump in Q. specialize (Hcap ty). destruct (live t' (owed h a)) as [[e0 a0]|]; injection Q as <- <-; lia.
Qed.
Lemma owed_grows : forall a h k t t', capped c -> (forall e act, owed h a = Some (e, act) -> e <= t + c_max c) -> t <= t' -> time_of k = Some t' ->
  forall e act, owed h a = Some (e, act) -> t' <= e -> exists e' act', owed (h ++ [k]) a = Some (e', act') /\ e <= e' /\ (act = true -> act' = true).
Proof.
  intros a h k t t' Hcap H L T e act Q Le. rewrite (owed_snoc ntop pton c). destruct (offence a k) as [[t2 secs]|] eqn:O; [|exists e, act; split; [exact Q|split; [lia|auto]]].
  destruct (offence_time a k t2 secs O) as [T2 (ty & ->)]. assert (t2 = t') as -> by congruence. unfold bump. rewrite Q. cbn [live]. replace (e <? t') with false by lia. eexists _, _. split; [reflexivity|]. specialize (H e act Q). destruct Hd as [_ Hd']. specialize (Hd' ty). split; [lia|intros ->; reflexivity].
Qed.
Lemma unders : forall a t0 h os s, capped c -> wf a -> Forall call_ok h -> clock t0 h -> session ntop pton c h = Some (os, s) -> under a h (last_time t0 h) (seen s a).
Proof.
  intros a t0 h os s Hcap Wa F C E. apply (pointwise (under a) a t0 Wa) with (h := h) (os := os); auto.
  - split; intros e act Q; discriminate.
  - intros h' t v k [H1 H2] T. assert (O : offence a k = None) by (destruct k; cbn in *; auto; discriminate). unfold under. rewrite (owed_other a h' k O). now split.
  - intros h' t v k t' [H1 H2] T L O. unfold under. rewrite (owed_other a h' k O). split; [intros e act Q; specialize (H1 e act Q); lia|]. intros e act Q Le. apply (H2 e act Q). lia.
  - intros h' t v k t' [H1 H2] T L. split; [exact (owed_cap a h' k t t' Hcap H1 L T)|]. intros e act Q Le. destruct v as [[e0 a0]|]; [|discriminate]. cbn [live] in Q. destruct (e0 <? t') eqn:Q1; [discriminate|]. injection Q as -> ->. destruct (H2 e act eq_refl) as (e' & act' & Oe & L1 & L2); [lia|].
    destruct (owed_grows a h' k t t' Hcap H1 L T e' act' Oe) as (e2 & act2 & O2 & L3 & L4); [lia|]. exists e2, act2. split; [exact O2|]. split; [lia|auto].
  - intros h' t v k t' secs [H1 H2] O L. destruct (offence_time a k t' secs O) as [T (ty & Es)]. split; [exact (owed_cap a h' k t t' Hcap H1 L T)|]. intros e act Q Le. rewrite (owed_snoc ntop pton c), O. destruct Hd as [Hm Hd']. specialize (Hd' ty). specialize (Hcap ty). rewrite <- Es in *.
    unfold bump in *. destruct v as [[e0 a0]|]; cbn [live] in Q.
    + destruct (e0 <? t') eqn:Q1.
      * injection Q as <- <-. destruct (owed h' a) as [[e1 a1]|]; cbn [live]; [destruct (e1 <? t') eqn:Q2|]; eexists _, _; (split; [reflexivity|]); (split; [lia|]); auto. intros Q3. destruct a1; [reflexivity|]. cbn [orb]. lia.
      * destruct (H2 e0 a0 eq_refl) as (e1 & a1 & Oe & L1 & L2); [lia|]. rewrite Oe. cbn [live]. replace (e1 <? t') with false by lia. injection Q as <- <-. eexists _, _. split; [reflexivity|]. split; [lia|]. intros Q3. apply orb_true_iff in Q3. destruct Q3 as [Q3|Q3]; [rewrite L2 by exact Q3; reflexivity|]. apply orb_true_iff. right. lia.
    + injection Q as <- <-. destruct (owed h' a) as [[e1 a1]|]; cbn [live]; [destruct (e1 <? t') eqn:Q2|]; eexists _, _; (split; [reflexivity|]); (split; [lia|]); auto. intros Q3. destruct a1; [reflexivity|]. cbn [orb]. lia.
  - intros h' t v k t' [H1 H2] T L. split; [exact (owed_cap a h' k t t' Hcap H1 L T)|]. intros e act Q. discriminate.
Qed.

(** * With room, the tables are the debts *)
Definition exact (h : list call) (t : Z) (s : state) : Prop := forall a, wf a -> live t (seen s a) = live t (owed h a).
Lemma roomy_app : forall h k, roomy ntop pton c (h ++ [k]) -> roomy ntop pton c h.
Proof. intros h k R h1 k1 t h2 E T. apply (R h1 k1 t (h2 ++ [k])); [|exact T]. rewrite E, <- app_assoc. reflexivity. Qed.
Lemma bump_live : forall t ty p, live t (bump c t (charge c ty) p) <> None.
Proof.
  intros t ty p. destruct Hd as [H1 H2]. specialize (H2 ty). unfold bump. destruct (live t p) as [[e a]|] eqn:E; cbn [live].
  - assert (t <= e) by (destruct p as [[e0 a0]|]; [|discriminate]; cbn [live] in E; destruct (e0 <? t) eqn:Q; [discriminate|]; injection E as -> ->; lia). replace (Z.min (e + charge c ty) (t + c_max c) <? t) with false by lia. discriminate.
  - replace (t + charge c ty <? t) with false by lia. discriminate.
Qed.
Lemma owed_stays : forall h k t a, time_of k = Some t -> live t (owed h a) <> None -> live t (owed (h ++ [k]) a) <> None.
Proof.
  intros h k t a T H. rewrite (owed_snoc ntop pton c). destruct (offence a k) as [[t2 secs]|] eqn:O; [|exact H]. destruct (offence_time a k t2 secs O) as [T2 (ty & ->)]. assert (t2 = t) as -> by congruence. apply bump_live.
Qed.
Lemma entries_few : forall h k t s1 f, sinv c s1 -> masked c s1 -> time_of k = Some t -> (forall a, wf a -> seen s1 a = live t (owed h a)) -> few_sources ntop pton c (h ++ [k]) t ->
  zlen (by_addr (tab s1 f)) <= limit c f /\ (forall b ty, k = Penalise b ty t -> f = x_af b -> wf b -> counts ntop pton c b ty = true -> lk s1 b = None -> zlen (by_addr (tab s1 f)) + 1 <= limit c f).
Proof.
  intros h k t s1 f I M T Ex Few. destruct (I f) as [If _]. pose proof (ti_v _ _ If) as V. assert (V' := V). rewrite Forall_forall in V'.
  assert (Owe : forall p, In p (by_addr (tab s1 f)) -> exists a, wf a /\ x_af a = f /\ own c a p /\ live t (owed (h ++ [k]) a) <> None).
  { intros p Hp. destruct (M f p Hp) as (a & Wa & Fa & Oa). exists a. split; [exact Wa|]. split; [exact Fa|]. split; [exact Oa|]. apply owed_stays; [exact T|]. rewrite <- (Ex a Wa). unfold seen. rewrite (proj2 (lk_iff c Hc s1 a p I Wa)) by (split; [now rewrite Fa|exact Oa]). discriminate. }
  split.
  - apply (few_bound ntop pton c Hc (h ++ [k]) t f); auto; [apply sorted_nodup, If|]. intros p q. now apply (unique f).
  - intros b ty -> Fb Wb Cb Lb. destruct (mask_spec c b Hc Wb) as (m & Em & Wm & Fm & _). set (p := mkP m 0 false 0). assert (Vp : vld f p) by (split; [exact Wm|cbn; congruence]). assert (Ob : own c b p) by (exists m; split; [exact Em|exact (p_refl f p Vp)]).
    assert (No : forall q, In q (by_addr (tab s1 f)) -> penalty_addr_cmp p q <> 0). { intros q Hq C. assert (lk s1 b = Some q); [|congruence]. apply lk_iff; auto. split; [now rewrite <- Fb|]. exists m. split; [exact Em|exact C]. }
    replace (zlen (by_addr (tab s1 f)) + 1) with (zlen (p :: by_addr (tab s1 f))) by (rewrite zlen_cons; lia). apply (few_bound ntop pton c Hc (h ++ [Penalise b ty t]) t f); auto.
    + constructor; [|apply sorted_nodup, If]. intros H. apply (No p H). exact (p_refl f p Vp).
    + intros q r [<-|Hq] [<-|Hr] C; [reflexivity|exfalso; exact (No r Hr C)| |now apply (unique f (tab s1 f))]. exfalso. apply (No q Hq). apply (p_sym f) in C; auto.
    + intros q [<-|Hq]; [|now apply Owe]. exists b. split; [exact Wb|]. split; [auto|]. split; [exact Ob|]. rewrite (owed_snoc ntop pton c). rewrite offence_pen, Cb. assert (same_sourceb c b b = true) as -> by (apply same_sourceb_iff; repeat split). cbn [andb]. apply bump_live.
Qed.
Lemma exact_expire : forall h t now s s1 a, exact h t s -> t <= now -> sinv c s -> wf a -> expire_penalties now s = Some s1 -> seen s1 a = live now (owed h a).
Proof. intros h t now s s1 a X L I Wa E. rewrite (seen_expire s s1 now a I Wa E), <- (live_live t now) by exact L. rewrite (X a Wa). now apply live_live. Qed.
Lemma limit_deny : forall f, over_for c f = DENY_ALL -> limit c f = max_for c f - 1.
Proof. intros [] H; cbn [over_for limit max_for] in *; rewrite H; reflexivity. Qed.
Lemma limit_perm : forall f, over_for c f <> DENY_ALL -> limit c f = max_for c f.
Proof. intros [] H; cbn [over_for limit max_for] in *; [replace (c_over4 c =? DENY_ALL) with false by lia|replace (c_over6 c =? DENY_ALL) with false by lia]; reflexivity. Qed.
Lemma exacts : forall t0 h os s, Forall call_ok h -> clock t0 h -> roomy ntop pton c h -> session ntop pton c h = Some (os, s) -> exact h (last_time t0 h) s.
Proof.
  intros t0. induction h as [|k h IH] using rev_ind; intros os s F C R E.
  - intros a Wa. unfold session in E. destruct init_good as (s0 & E0 & _ & L0). rewrite E0 in E. cbn [play] in E. injection E as <- <-. unfold seen. now rewrite L0.
  - pose proof F as F0. apply Forall_app in F. destruct F as [F Fk]. apply Forall_inv in Fk. apply clock_snoc in C. destruct C as [C Ck]. destruct (session_snoc h k os s E) as (os' & o & s' & E' & Ek & _).
    destruct (session_good h F) as (os2 & s2 & E2 & G & _). assert (s2 = s') as -> by congruence. specialize (IH os' s' F C (roomy_app _ _ R) E'). set (t := last_time t0 h) in *. rewrite last_snoc. pose proof G as (I & M & K).
    destruct (time_of k) as [now|] eqn:Tk.
    2:{ intros a Wa. pose proof (step_touched s' k o s a G Fk Ek Wa) as T. unfold touched in T. rewrite Tk in T. rewrite T. assert (O : offence a k = None) by (destruct k; cbn in *; auto; discriminate). rewrite (owed_other a h k O). now apply IH. }
    pose proof (R h k now [] eq_refl Tk) as Few. destruct k as [b ty t'|peer t'| |]; cbn [time_of] in Tk; try discriminate; injection Tk as ->; cbn [step call_ok] in *.
    + destruct Fk as [Wb Ht]. destruct (counts ntop pton c b ty) eqn:Cb.
      * destruct (penalise_lk ntop pton c Hc s' b ty now I M Wb Ht Cb) as (s2 & s1 & E3 & I' & M' & _ & Ee & Cs). rewrite E3 in Ek. injection Ek as _ <-. pose proof (masked_expire s' s1 now I M Ee) as M1. destruct (lk_expire ntop c Hc s' s1 now b I Wb Ee) as (I1 & _ & _).
        assert (X1 : forall a, wf a -> seen s1 a = live now (owed h a)) by (intros a Wa; now apply (exact_expire h t now s' s1)).
        destruct (entries_few h (Penalise b ty now) now s1 (x_af b) I1 M1 eq_refl X1 Few) as [B1 B2]. destruct (I1 (x_af b)) as [If1 _]. rewrite <- (ti_n _ _ If1) in B1, B2.
        destruct Cs as [(_ & D & N)|[A|(D & N & Lb & _)]]; [exfalso; rewrite (limit_deny _ D) in B1; lia| |exfalso; specialize (B2 b ty eq_refl eq_refl Wb Cb Lb); rewrite (limit_perm _ D) in B2; lia].
        intros a Wa. rewrite (A a Wa : seen s2 a = _), (after_bump s' s1 b ty now a I Wa Ee), (owed_snoc ntop pton c), offence_pen, Cb. cbn [andb]. destruct (same_sourceb c a b).
        -- f_equal. unfold bump. rewrite <- (seen_expire s' s1 now a I Wa Ee), (X1 a Wa). reflexivity.
        -- rewrite <- (seen_expire s' s1 now a I Wa Ee), (X1 a Wa). apply live_live. lia.
      * destruct (penalise_spec ntop pton c s' b ty now Hc I Wb Ht) as (s2 & E3 & _ & _ & [[_ ->]|[Q _]]); [|congruence]. rewrite E3 in Ek. injection Ek as _ <-. intros a Wa. rewrite owed_other by (rewrite offence_pen, Cb; reflexivity). rewrite <- (live_live t now) by exact Ck. rewrite (IH a Wa). now apply live_live.
    + assert (Hs : (s = s' \/ expire_penalties now s' = Some s)).
      { destruct peer as [b|]; [|unfold srclimit_penalty_check_allow in Ek; destruct (negb _); injection Ek as _ <-; now left]. destruct (check_spec ntop pton c s' b now Hc I Fk) as (m & ans & s2 & _ & E3 & _ & _ & Cs). rewrite E3 in Ek. injection Ek as _ <-. destruct Cs as [(_ & _ & ->)|(_ & Ee & _)]; [now left|now right]. }
      intros a Wa. rewrite owed_other by reflexivity. destruct Hs as [-> |Ee].
      * rewrite <- (live_live t now) by exact Ck. rewrite (IH a Wa). now apply live_live.
      * rewrite (exact_expire h t now s' s a IH Ck I Wa Ee). apply live_live. lia.
Qed.
End Env.
