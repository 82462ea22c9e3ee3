(** C52: penalties and connection limits per source. *)
From Coq Require Import String Permutation Sorting.Sorted.
From Verif Require Import Base Bits AddrModel AddrSpec AddrProof SrclimitModel SrclimitSpec SrclimitProof SrclimitProof2 SrclimitProof3 SrclimitProof4 SrclimitProof5 SrclimitProof6.
Local Open Scope Z_scope.

(** C52, the answer.  As long as no more sources are penalised at once than the
    tables have room for, a connection is refused exactly when its source owes
    an active penalty, as computed from the history alone. *)
Theorem C52_answers : forall ntop pton c t0 h peer t, cfg_ok c -> durations_ok c ->
  let h' := h ++ [CheckPenalty peer t] in
  Forall call_ok h' -> clock t0 h' -> roomy ntop pton c h' ->
  exists os s, session ntop pton c h' = Some (os ++ [Some (negb (refused ntop pton c h peer t))], s).
Proof.
  intros ntop pton c t0 h peer t Hc Hd h' F C R. destruct (session_good ntop pton c Hc h' F) as (os0 & s0 & E0 & _). destruct (session_snoc ntop pton c h _ os0 s0 E0) as (os & o & s & E & Ek & ->). exists os, s0. rewrite E0. do 3 f_equal. f_equal. f_equal.
  unfold h' in *. apply Forall_app in F. destruct F as [F Fk]. apply Forall_inv in Fk. pose proof C as C0. apply clock_snoc in C. destruct C as [C Ct]. cbn [time_of] in Ct.
  destruct peer as [a|]; [|cbn [step refused negb] in *; unfold srclimit_penalty_check_allow in Ek; destruct (negb _); injection Ek as <- _; reflexivity]. cbn [call_ok] in Fk.
  destruct (refusal ntop pton c Hc h a t os s o s0 F Fk E Ek) as (b & -> & Cs). f_equal. unfold refused. destruct Cs as [(Q & ->)|(Q & Ee & I' & M' & Iff)]; rewrite Q; [reflexivity|]. cbn [andb].
  pose proof (exacts ntop pton c Hc Hd t0 h os s F C (roomy_app ntop pton c h _ R) E) as X. destruct (session_good ntop pton c Hc h F) as (os2 & s2 & E2 & (I & M & _) & _). assert (s2 = s) as -> by congruence.
  assert (Nf : ~ (over_for c (x_af a) = DENY_ALL /\ max_for c (x_af a) <= npen (tab s0 (x_af a)))).
  { intros [D N]. destruct (entries_few ntop pton c Hc Hd h (CheckPenalty (Some a) t) t s0 (x_af a) I' M' eq_refl) as [B _]; [|exact (R h _ t [] eq_refl eq_refl)|].
    - intros a' Wa'. exact (exact_expire ntop pton c Hc h _ t s s0 a' X Ct I Wa' Ee).
    - destruct (I' (x_af a)) as [If _]. rewrite <- (ti_n _ _ If), (limit_deny c _ D) in B. lia. }
  rewrite <- (live_live (last_time t0 h) t), <- (X a Fk), live_live by exact Ct. destruct (live t (SrclimitProof4.seen c s a)) as [[e act]|] eqn:L.
  - destruct act; cbn [negb].
    + apply Iff. right. now exists e.
    + destruct b; [reflexivity|]. destruct (proj1 Iff eq_refl) as [N|(e' & Q')]; [contradiction|discriminate].
  - destruct b; [reflexivity|]. destruct (proj1 Iff eq_refl) as [N|(e' & Q')]; [contradiction|discriminate].
Qed.

(** C52, the tables.  Whatever the history, nothing fails; each table holds at
    most the configured number of entries, one per source, and its count and
    its expiry index agree with its contents. *)
Theorem C52_tables : forall ntop pton c h, cfg_ok c -> Forall call_ok h ->
  exists os s, session ntop pton c h = Some (os, s) /\ length os = length h /\
    forall f, let T := tab s f in
      npen T = zlen (by_addr T) /\ Permutation (by_addr T) (by_expiry T) /\ zlen (by_addr T) <= max_for c f /\
      (forall p q, In p (by_addr T) -> In q (by_addr T) -> p <> q -> x_af (p_addr p) = f /\ addr_cmp (p_addr p) (p_addr q) <> 0) /\ NoDup (by_addr T).
Proof.
  intros ntop pton c h Hc F. destruct (session_good ntop pton c Hc h F) as (os & s & E & (I & _) & L). exists os, s. split; [exact E|]. split; [exact L|]. intros f T. destruct (I f) as [If Nf]. pose proof (ti_v _ _ If) as V. rewrite Forall_forall in V.
  split; [apply If|]. split; [apply If|]. split; [change T with (tab s f); rewrite <- (ti_n _ _ If); exact Nf|]. split; [|apply sorted_nodup, If]. intros p q Hp Hq Ne. split; [apply (V p Hp)|]. intros Q. apply Ne. exact (unique f T p q If Hp Hq Q).
Qed.

(** C52, causes.  Whatever the history, only enabled penalties refuse, exempt
    addresses are never refused, and a refusal is due to an offence of the same
    source no longer ago than the configured maximum (or the one charge, if
    that is larger); or, under the deny-all policy, to as many different
    sources with such offences as the table holds. *)
Theorem C52_causes : forall ntop pton c t0 h a t os s, cfg_ok c ->
  let h' := h ++ [CheckPenalty (Some a) t] in
  Forall call_ok h' -> clock t0 h' -> session ntop pton c h' = Some (os ++ [Some false], s) ->
  let recent b := exists k t1 secs, In k h /\ offence ntop pton c b k = Some (t1, secs) /\ t <= t1 + Z.max (c_max c) secs in
  c_enabled c = true /\ exempt ntop pton c a = false /\
  (recent a \/
   over_for c (x_af a) = DENY_ALL /\ exists l, zlen l = max_for c (x_af a) /\ ForallOrdPairs (fun x y => ~ same_source c x y) l /\ forall b, In b l -> x_af b = x_af a /\ recent b).
Proof.
  intros ntop pton c t0 h a t os s Hc h' F C E recent. destruct (session_snoc ntop pton c h _ _ s E) as (os' & o & s' & E' & Ek & Q). apply app_inj_tail in Q. destruct Q as [<- <-].
  unfold h' in *. apply Forall_app in F. destruct F as [F Fk]. apply Forall_inv in Fk. cbn [call_ok] in Fk. apply clock_snoc in C. destruct C as [C Ct].
  destruct (refusal ntop pton c Hc h a t os s' _ s F Fk E' Ek) as (b & Eb & Cs). injection Eb as <-. destruct Cs as [(_ & Q)|(Q & Ee & I' & M' & Iff)]; [discriminate|]. apply andb_prop in Q. destruct Q as [Q1 Q2]. apply negb_true_iff in Q2. split; [exact Q1|]. split; [exact Q2|].
  assert (Rec : forall b e act, wf b -> SrclimitProof4.seen c s' b = Some (e, act) -> t <= e -> recent b). { intros b e act Wb Sb Le. destruct (causes ntop pton c Hc b t0 h os s' Wb F C E' e act Sb) as (k & t1 & secs & Hk & O & Lt). exists k, t1, secs. split; [exact Hk|]. split; [exact O|lia]. }
  destruct (session_good ntop pton c Hc h F) as (os2 & s2 & E2 & (I & _) & _). assert (s2 = s') as -> by congruence.
  destruct (proj1 Iff eq_refl) as [[D N]|(e & L)].
  - right. split; [exact D|]. destruct (full_sources ntop c Hc s' s (x_af a) t I I' M' Ee N) as (l & Hl & Dl & Cl). exists l. split; [exact Hl|]. split; [exact Dl|]. intros b Hb. destruct (Cl b Hb) as (Wb & Fb & e & act & Sb & Le). split; [exact Fb|]. exact (Rec b e act Wb Sb Le).
  - left. destruct (SrclimitProof4.seen c s' a) as [[e0 act0]|] eqn:S; [|discriminate]. cbn [live] in L. destruct (e0 <? t) eqn:Le; [discriminate|]. apply (Rec a e0 act0 Fk S). lia.
Qed.

(** C52, soundness of refusals even when the tables overflow: if no single
    charge is above the maximum, whoever is refused owes an active penalty, or
    the policy is deny-all and as many different sources as the table holds owe
    something at that moment. *)
Theorem C52_owes : forall ntop pton c t0 h a t os s, cfg_ok c -> durations_ok c -> capped c ->
  let h' := h ++ [CheckPenalty (Some a) t] in
  Forall call_ok h' -> clock t0 h' -> session ntop pton c h' = Some (os ++ [Some false], s) ->
  refused ntop pton c h (Some a) t = true \/
  over_for c (x_af a) = DENY_ALL /\ exists l, zlen l = max_for c (x_af a) /\ ForallOrdPairs (fun x y => ~ same_source c x y) l /\ forall b, In b l -> x_af b = x_af a /\ live t (owed ntop pton c h b) <> None.
Proof.
  intros ntop pton c t0 h a t os s Hc Hd Hcap h' F C E. destruct (session_snoc ntop pton c h _ _ s E) as (os' & o & s' & E' & Ek & Q). apply app_inj_tail in Q. destruct Q as [<- <-].
  unfold h' in *. apply Forall_app in F. destruct F as [F Fk]. apply Forall_inv in Fk. cbn [call_ok] in Fk. apply clock_snoc in C. destruct C as [C Ct]. cbn [time_of] in Ct.
  destruct (refusal ntop pton c Hc h a t os s' _ s F Fk E' Ek) as (b & Eb & Cs). injection Eb as <-. destruct Cs as [(_ & Q)|(Q & Ee & I' & M' & Iff)]; [discriminate|]. unfold refused. rewrite Q. cbn [andb].
  destruct (session_good ntop pton c Hc h F) as (os2 & s2 & E2 & (I & _) & _). assert (s2 = s') as -> by congruence.
  destruct (proj1 Iff eq_refl) as [[D N]|(e & L)].
  - right. split; [exact D|]. destruct (full_sources ntop c Hc s' s (x_af a) t I I' M' Ee N) as (l & Hl & Dl & Cl). exists l. split; [exact Hl|]. split; [exact Dl|]. intros b Hb. destruct (Cl b Hb) as (Wb & Fb & e & act & Sb & Le). split; [exact Fb|].
    destruct (unders ntop pton c Hc Hd b t0 h os s' Hcap Wb F C E') as [_ U]. destruct (U e act Sb) as (e' & act' & O & L1 & _); [lia|]. rewrite O. cbn [live]. replace (e' <? t) with false by lia. discriminate.
  - left. destruct (SrclimitProof4.seen c s' a) as [[e0 act0]|] eqn:S; [|discriminate]. cbn [live] in L. destruct (e0 <? t) eqn:Le; [discriminate|]. injection L as -> ->. destruct (unders ntop pton c Hc Hd a t0 h os s' Hcap Fk F C E') as [_ U]. destruct (U e true S) as (e' & act' & O & L1 & L2); [lia|]. rewrite O. cbn [live]. replace (e' <? t) with false by lia. now apply L2.
Qed.

(** C52, eviction.  A penalty is only ever dropped before its time when a new
    one needs its place, and then no penalty that is kept ends earlier. *)
Theorem C52_eviction : forall ntop pton c h a ty now os s s', cfg_ok c -> Forall call_ok h -> wf a -> 0 <= ty <= 5 ->
  session ntop pton c h = Some (os, s) -> step ntop pton c s (Penalise a ty now) = Some (None, s') ->
  forall f p, In p (by_addr (tab s f)) -> now <= p_expiry p ->
  (forall q, In q (by_addr (tab s' f)) -> addr_cmp (p_addr p) (p_addr q) <> 0) ->
  f = x_af a /\ max_for c f <= zlen (by_addr (tab s' f)) /\ forall q, In q (by_addr (tab s' f)) -> p_expiry p <= p_expiry q.
Proof.
  intros ntop pton c h a ty now os s s' Hc F Wa Ht E Ek f p Hp Lp Gone. destruct (session_good ntop pton c Hc h F) as (os2 & s2 & E2 & (I & _) & _). assert (s2 = s) as -> by congruence. cbn [step] in Ek.
  assert (Refl : forall g x, vld g x -> addr_cmp (p_addr x) (p_addr x) = 0) by (intros g x V; exact (p_refl g x V)).
  destruct (I f) as [If _]. pose proof (ti_v _ _ If) as V. rewrite Forall_forall in V. assert (Kept : In p (by_addr (tab s' f)) -> False) by (intros H; apply (Gone p H), (Refl f), V, Hp).
  destruct (penalise_spec ntop pton c s a ty now Hc I Wa Ht) as (s3 & E3 & I' & _ & [[_ ->]|[_ (s1 & m & Ee & Em & Oth & Cs)]]); rewrite E3 in Ek; injection Ek as <-; [exfalso; auto|]. cbv zeta in Cs.
  destruct (expire_all c s now I) as (s1' & Ee' & I1 & _ & P1). assert (s1' = s1) as -> by congruence. assert (Hp1 : In p (by_addr (tab s1 f))). { apply (Permutation_in _ (Permutation_sym (P1 f))). apply filter_In. split; [exact Hp|lia]. }
  assert (Fd : f = x_af a \/ f <> x_af a) by (destruct f, (x_af a); (left; reflexivity) || (right; discriminate)). destruct Fd as [-> |Nf]; [|exfalso; apply Kept; exact (Permutation_in _ (Permutation_sym (Oth f Nf)) Hp1)].
  destruct Cs as [(-> & _)|[(_ & [(_ & P)|(_ & N & v & P & Mv)])|(old & Ho & Co & Eo)]].
  - exfalso; auto.
  - exfalso. apply Kept. apply (Permutation_in _ (Permutation_sym P)). now right.
  - split; [reflexivity|]. destruct (I1 (x_af a)) as [If1 _]. split.
    + pose proof (perm_zlen _ _ _ P) as L. rewrite !zlen_cons in L. rewrite (ti_n _ _ If1) in N. lia.
    + assert (Hv : In p (v :: by_addr (tab s3 (x_af a)))) by (apply (Permutation_in _ P); now right). destruct Hv as [<-|Hv]; [exact Mv|exfalso; auto].
  - exfalso. assert (H : In (upd old (pen_more c old ty now) p) (by_addr (tab s3 (x_af a)))) by (rewrite Eo; now apply in_map). apply (Gone _ H). unfold upd. destruct (_ =? 0) eqn:Q; [|apply (Refl (x_af a)), V, Hp]. apply Z.eqb_eq in Q.
    destruct (I1 (x_af a)) as [If1 _]. assert (old = p) as ->. { apply (unique (x_af a) (tab s1 (x_af a))); auto. } apply (Refl (x_af a) p), V, Hp.
Qed.

(** C52, connections.  With a limit per source configured, connection attempts
    are allowed exactly when the counted connections leave room for one more of
    that source and one more in total, and the counts never exceed the limits. *)
Theorem C52_connections : forall ntop pton c h, cfg_ok c -> c_max_persource c <> INT_MAX -> 0 <= c_max_persource c -> Forall call_ok h -> fresh_ids ntop c [] h ->
  (exists os s, session ntop pton c h = Some (os, s) /\ allow_answers h os = snd (conns ntop c [] h)) /\
  let l := fst (conns ntop c [] h) in zlen l <= c_max_children c /\ forall a, zlen (filter (fun x => same_sourceb c a (snd x)) l) <= c_max_persource c.
Proof.
  intros ntop pton c h Hc Np P0 F Fr. assert (M0 : 0 <= c_max_children c) by (destruct Hc as (_ & _ & _ & _ & [H|H]); [contradiction|lia]). split.
  - unfold session. destruct (init_good c Hc) as (s0 & E0 & G & _). rewrite E0. destruct (conns_rel ntop pton c Hc h s0 [] G Np (empty_krel c s0 E0 Np) F Fr) as (os & s & E & A & _). exists os, s. auto.
  - apply conns_bound; auto; rewrite ?zlen_nil; try lia.
Qed.
Print Assumptions C52_answers.
Print Assumptions C52_tables.
Print Assumptions C52_causes.
Print Assumptions C52_owes.
Print Assumptions C52_eviction.
Print Assumptions C52_connections.

(** * Cases *)
Definition ip4 (w : Z) : xaddr := mkX INET [w; 0; 0; 0] 0.
Definition no_text (a : xaddr) : option (list Z) := Some [].
Definition no_parse (t : list Z) : option xaddr := None.
(** A /24 is one source; five entries; 90 s for a crash, 5 s for a failed
    authentication, 600 s at most, 15 s before a penalty is active. *)
Definition conf (m over : Z) : config := mkCfg 10 2 24 64 true m 5 over 0 90 10 5 1 10 600 15 None.
Lemma ip4_wf : forall w, 0 <= w < 4294967296 -> wf (ip4 w).
Proof. intros w H. split; [reflexivity|]. repeat constructor; cbn; lia. Qed.
Definition A : xaddr := ip4 3221225985. (* 192.0.2.1 *)
Definition A' : xaddr := ip4 3221226038. (* 192.0.2.54, the same source *)
Definition B : xaddr := ip4 3232235777. (* 192.168.1.1 *)
Definition hist : list call := [Penalise A 2 100; CheckPenalty (Some A') 101; Penalise A' 1 102; Penalise B 2 103; CheckPenalty (Some B) 104].
(** The hypotheses of C52_answers hold of this history for a table of five, and
    the answers are the expected ones: not yet after one failure, refused after
    the crash, other sources are not affected, and over after the time. *)
Lemma owed_only : forall h a, (forall k, In k h -> match k with Penalise b _ _ => b = A \/ b = A' \/ b = B | _ => True end) -> live 0 None = None -> forall t, live t (owed no_text no_parse (conf 5 0) h a) <> None -> same_sourceb (conf 5 0) a A = true \/ same_sourceb (conf 5 0) a A' = true \/ same_sourceb (conf 5 0) a B = true.
Proof.
  intros h a H _ t L. destruct (same_sourceb (conf 5 0) a A) eqn:E1; [auto|]. destruct (same_sourceb (conf 5 0) a A') eqn:E2; [auto|]. destruct (same_sourceb (conf 5 0) a B) eqn:E3; [auto|]. exfalso. apply L. unfold owed.
  assert (Q : forall p, fold_left (fun p k => match offence no_text no_parse (conf 5 0) a k with Some (t, secs) => bump (conf 5 0) t secs p | None => p end) h p = p); [|now rewrite Q].
  clear L. induction h as [|k h IH]; intros p; cbn [fold_left]; [reflexivity|]. rewrite IH by (intros k' Hk; apply H; now right). specialize (H k (or_introl eq_refl)). destruct k as [b ty now| | |]; cbn [offence]; try reflexivity. destruct H as [-> | [-> | ->]]; [rewrite E1|rewrite E2|rewrite E3]; rewrite andb_false_r; reflexivity.
Qed.
Example C52_answers_ex : cfg_ok (conf 5 0) /\ durations_ok (conf 5 0) /\ capped (conf 5 0) /\
  (forall peer t, In (peer, t) [(Some A, 110); (Some A', 195); (Some A', 196); (Some B, 110)] ->
     let h' := hist ++ [CheckPenalty peer t] in Forall call_ok h' /\ clock 0 h' /\ roomy no_text no_parse (conf 5 0) h') /\
  map (fun x => refused no_text no_parse (conf 5 0) hist (fst x) (snd x)) [(Some A, 110); (Some A', 195); (Some A', 196); (Some B, 110)] = [true; true; false; false] /\
  map (fun x => option_map fst (session no_text no_parse (conf 5 0) (hist ++ [CheckPenalty (fst x) (snd x)]))) [(Some A, 110); (Some A', 195); (Some A', 196); (Some B, 110)]
    = [Some [None; Some true; None; None; Some true; Some false]; Some [None; Some true; None; None; Some true; Some false]; Some [None; Some true; None; None; Some true; Some true]; Some [None; Some true; None; None; Some true; Some true]].
Proof.
  assert (Ch : forall ty, charge (conf 5 0) ty = 90 \/ charge (conf 5 0) ty = 5 \/ charge (conf 5 0) ty = 10 \/ charge (conf 5 0) ty = 1). { intros ty. unfold charge. cbn [c_crash c_authfail c_grace c_noauth c_refuse conf]. repeat (destruct (_ =? _); auto). }
  split; [unfold cfg_ok; cbn; lia|]. split; [split; [cbn; lia|intros ty; destruct (Ch ty) as [-> | [-> | [-> | ->]]]; lia]|]. split; [intros ty; change (c_max (conf 5 0)) with 600; destruct (Ch ty) as [-> | [-> | [-> | ->]]]; lia|]. split; [|split; vm_compute; reflexivity].
  intros peer t Hin h'. assert (Wp : match peer with Some a => wf a | None => True end) by (cbn [In] in Hin; repeat (destruct Hin as [Hin|Hin]; [injection Hin as <- _; apply ip4_wf; lia|]); destruct Hin). assert (Ht : 104 <= t) by (cbn [In] in Hin; repeat (destruct Hin as [Hin|Hin]; [injection Hin as _ <-; lia|]); destruct Hin).
  split; [unfold h', hist; cbn [app]; repeat constructor; try (cbn; lia); try (apply ip4_wf; lia); cbn [call_ok]; destruct peer; exact Wp|]. split; [unfold h', hist; cbn [app clock time_of]; lia|].
  intros h1 k t1 h2 E Tk f. destruct f.
  - exists [A; A'; B]. split; [vm_compute; discriminate|]. intros a Wa Fa L. apply owed_only in L; [|clear L|reflexivity].
    + destruct L as [L|[L|L]]; apply same_sourceb_iff in L; [exists A|exists A'|exists B]; (split; [cbn [In]; auto|split; [apply ip4_wf; lia|exact L]]).
    + intros k' Hk. assert (Hk' : In k' h') by (rewrite E; apply in_app_iff in Hk; apply in_app_iff; destruct Hk as [Hk|[<-|[]]]; [now left|right; now left]). unfold h', hist in Hk'. cbn [app In] in Hk'. repeat (destruct Hk' as [<-|Hk']; [auto|]). destruct Hk'.
  - exists []. split; [vm_compute; discriminate|]. intros a Wa Fa L. exfalso. apply owed_only in L; [|clear L|reflexivity].
    + destruct L as [L|[L|L]]; unfold same_sourceb in L; rewrite Fa in L; discriminate.
    + intros k' Hk. assert (Hk' : In k' h') by (rewrite E; apply in_app_iff in Hk; apply in_app_iff; destruct Hk as [Hk|[<-|[]]]; [now left|right; now left]). unfold h', hist in Hk'. cbn [app In] in Hk'. repeat (destruct Hk' as [<-|Hk']; [auto|]). destruct Hk'.
Qed.
(** Without room the statement fails, under either policy.  Permissive: with one
    place, the crash of A is forgotten when B crashes, and A gets in. *)
Theorem C52_room_refuted :
  (exists c h a t os s, cfg_ok c /\ durations_ok c /\ Forall call_ok (h ++ [CheckPenalty (Some a) t]) /\ clock 0 (h ++ [CheckPenalty (Some a) t]) /\
     refused no_text no_parse c h (Some a) t = true /\ session no_text no_parse c (h ++ [CheckPenalty (Some a) t]) = Some (os ++ [Some true], s)) /\
  (exists c h a t os s, cfg_ok c /\ durations_ok c /\ Forall call_ok (h ++ [CheckPenalty (Some a) t]) /\ clock 0 (h ++ [CheckPenalty (Some a) t]) /\
     live t (owed no_text no_parse c h a) = None /\ session no_text no_parse c (h ++ [CheckPenalty (Some a) t]) = Some (os ++ [Some false], s)).
Proof.
  assert (Cf : forall m over, 0 <= m -> cfg_ok (conf m over) /\ durations_ok (conf m over)). { intros m over Hm. split; [unfold cfg_ok; cbn; lia|]. split; [cbn; lia|]. intros ty. unfold charge. cbn [c_crash c_authfail c_grace c_noauth c_refuse conf]. repeat (destruct (_ =? _); try lia). }
  assert (Wok : forall h t a, In a [A; A'; B] -> (forall k, In k h -> match k with Penalise b ty _ => In b [A; A'; B] /\ 0 <= ty <= 5 | _ => False end) -> Forall call_ok (h ++ [CheckPenalty (Some a) t])).
  { assert (W : forall a, In a [A; A'; B] -> wf a) by (intros a H; cbn [In] in H; destruct H as [<-|[<-|[<-|[]]]]; apply ip4_wf; lia). intros h t a Ha H. apply Forall_app. split; [|constructor; [now apply W|constructor]]. apply Forall_forall. intros k Hk. specialize (H k Hk). destruct k; try contradiction. split; [apply W|]; apply H. }
  split.
  - exists (conf 1 0), [Penalise A 1 100; Penalise B 1 101], A, 102, [None; None]. eexists. split; [apply Cf; lia|]. split; [apply Cf; lia|]. split; [apply Wok; [cbn; auto|]; intros k [<-|[<-|[]]]; cbn; intuition lia|]. split; [cbn; lia|]. split; [vm_compute; reflexivity|]. vm_compute. reflexivity.
  - exists (conf 1 1), [Penalise A 1 100], B, 102, [None]. eexists. split; [apply Cf; lia|]. split; [apply Cf; lia|]. split; [apply Wok; [cbn; auto|]; intros k [<-|[]]; cbn; intuition lia|]. split; [cbn; lia|]. split; [vm_compute; reflexivity|]. vm_compute. reflexivity.
Qed.
(** The configured maximum only bounds accumulation: a first penalty larger
    than the maximum is not cut down to it. *)
Theorem C52_max_refuted : exists c h a t os s, cfg_ok c /\ durations_ok c /\ Forall call_ok (h ++ [CheckPenalty (Some a) t]) /\ clock 0 (h ++ [CheckPenalty (Some a) t]) /\
  (forall k t1 secs, In k h -> offence no_text no_parse c a k = Some (t1, secs) -> t1 + c_max c < t) /\
  session no_text no_parse c (h ++ [CheckPenalty (Some a) t]) = Some (os ++ [Some false], s).
Proof.
  exists (mkCfg 10 2 24 64 true 5 5 0 0 90 10 5 1 10 60 15 None), [Penalise A 1 100], A', 180, [None]. eexists.
  split; [unfold cfg_ok; cbn; lia|]. split; [split; [cbn; lia|intros ty; unfold charge; cbn [c_crash c_authfail c_grace c_noauth c_refuse]; repeat (destruct (_ =? _); try lia)]|]. split; [repeat constructor; try (cbn; lia); apply ip4_wf; lia|]. split; [cbn; lia|]. split; [|vm_compute; reflexivity].
  intros k t1 secs [<-|[]] H. vm_compute in H. injection H as <- _. cbn. lia.
Qed.
(** Two connections of one source, the third refused, another source and a
    closed connection make room. *)
Example C52_connections_ex : let h := [CheckAllow (Some A) 7; CheckAllow (Some A') 8; CheckAllow (Some A) 9; CheckAllow (Some B) 9; Done 7; CheckAllow (Some A') 10] in
  fresh_ids no_text (conf 5 0) [] h /\ Forall call_ok h /\ option_map (fun r => allow_answers h (fst r)) (session no_text no_parse (conf 5 0) h) = Some [Some true; Some true; Some false; Some true; None; Some true].
Proof. split; [|split; [|vm_compute; reflexivity]]. - cbn; intuition lia. - repeat constructor; try (cbn; lia); apply ip4_wf; lia. Qed.
(** The hypotheses of C52_eviction are met when B takes A's place. *)
Example C52_eviction_ex : exists os s s', session no_text no_parse (conf 1 0) [Penalise A 1 100] = Some (os, s) /\ step no_text no_parse (conf 1 0) s (Penalise B 1 101) = Some (None, s') /\
  exists p, In p (by_addr (tab s INET)) /\ 101 <= p_expiry p /\ (forall q, In q (by_addr (tab s' INET)) -> addr_cmp (p_addr p) (p_addr q) <> 0).
Proof. eexists _, _, _. split; [vm_compute; reflexivity|]. split; [vm_compute; reflexivity|]. eexists. split; [left; reflexivity|]. split; [vm_compute; discriminate|]. intros q [<-|[]]. vm_compute. discriminate. Qed.
