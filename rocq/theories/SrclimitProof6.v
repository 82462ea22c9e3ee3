From Coq Require Import String Permutation Sorting.Sorted.
From Verif Require Import Base Bits AddrModel AddrSpec AddrProof SrclimitModel SrclimitSpec SrclimitProof SrclimitProof2 SrclimitProof3 SrclimitProof4 SrclimitProof5.
Local Open Scope Z_scope.

Section Env.
Variable ntop : xaddr -> option (list Z).
Variable pton : list Z -> option xaddr.
Variable c : config.
Hypothesis Hc : cfg_ok c.
Notation owed := (owed ntop pton c).
Notation offence := (offence ntop pton c).
Notation lk := (lk c).
Notation seen := (seen c).

(** One address for each entry of a table. *)
Lemma sources : forall s f, sinv c s -> masked c s -> forall X, (forall p, In p X -> In p (by_addr (tab s f))) -> NoDup X ->
  exists L, zlen L = zlen X /\ ForallOrdPairs (fun a b => ~ same_source c a b) L /\ forall a, In a L -> wf a /\ x_af a = f /\ exists p, In p X /\ own c a p /\ lk s a = Some p.
Proof.
  intros s f I M. destruct (I f) as [If _]. pose proof (ti_v _ _ If) as V. rewrite Forall_forall in V. induction X as [|p X IH]; intros Sub N; [exists []; split; [reflexivity|]; split; [constructor|intros a []]|].
  apply NoDup_cons_iff in N. destruct N as [N1 N2]. destruct IH as (L & HL & D & Cl); [intros q Hq; apply Sub; now right|exact N2|]. assert (Hp : In p (by_addr (tab s f))) by (apply Sub; now left). destruct (M f p Hp) as (a & Wa & Fa & Oa). exists (a :: L). split; [rewrite !zlen_cons; lia|]. split.
  - constructor; [|exact D]. apply Forall_forall. intros b Hb S. destruct (Cl b Hb) as (Wb & Fb & q & Hq & Oq & _). apply N1. assert (p = q) as ->; [|exact Hq]. apply (unique f (tab s f)); auto; [apply Sub; now right|]. assert (Vq : vld f q) by (apply V, Sub; now right). apply (own_fun c Hc a f); auto. apply (same_own c Hc a b); auto. now rewrite Fa.
  - intros b [<-|Hb]; [|destruct (Cl b Hb) as (Wb & Fb & q & Hq & Oq & Lq); split; [exact Wb|]; split; [exact Fb|]; exists q; split; [now right|auto]]. split; [exact Wa|]. split; [exact Fa|]. exists p. split; [now left|]. split; [exact Oa|]. apply lk_iff; auto. rewrite Fa. auto.
Qed.

(** What a refusal means in terms of what the tables hold. *)
Lemma refusal : forall h a t os s o s', Forall call_ok h -> wf a -> session ntop pton c h = Some (os, s) -> step ntop pton c s (CheckPenalty (Some a) t) = Some (o, s') ->
  exists b, o = Some b /\
  (c_enabled c && negb (exempt ntop pton c a) = false /\ b = true \/
   c_enabled c && negb (exempt ntop pton c a) = true /\ expire_penalties t s = Some s' /\ sinv c s' /\ masked c s' /\
   (b = false <-> over_for c (x_af a) = DENY_ALL /\ max_for c (x_af a) <= npen (tab s' (x_af a)) \/ exists e, live t (seen s a) = Some (e, true))).
Proof.
  intros h a t os s o s' F Wa E Ek. destruct (session_good ntop pton c Hc h F) as (os2 & s2 & E2 & (I & M & _) & _). assert (s2 = s) as -> by congruence. cbn [step] in Ek. destruct (check_spec ntop pton c s a t Hc I Wa) as (m & ans & s2 & Em & E3 & I' & _ & Cs). rewrite E3 in Ek. injection Ek as <- <-. exists ans. split; [reflexivity|].
  destruct Cs as [(C & -> & _)|(C & Ee & Iff)]; [left; auto|]. right. split; [exact C|]. split; [exact Ee|]. split; [exact I'|]. split; [exact (masked_expire c s s2 t I M Ee)|]. rewrite Iff. rewrite <- (seen_expire ntop c Hc s s2 t a I Wa Ee). unfold SrclimitProof4.seen.
  assert (Q : (exists p, In p (by_addr (tab s2 (x_af a))) /\ addr_cmp m (p_addr p) = 0 /\ p_active p = true) <-> exists e, option_map pair_of (lk s2 a) = Some (e, true)); [|rewrite Q; reflexivity].
  split.
  - intros (p & Hp & Cp & Ap). exists (p_expiry p). rewrite (proj2 (lk_iff c Hc s2 a p I' Wa)); [cbn [option_map]; unfold pair_of; now rewrite Ap|]. split; [exact Hp|]. exists m. auto.
  - intros (e & H). destruct (lk s2 a) as [p|] eqn:L; [|discriminate]. cbn [option_map] in H. apply lk_iff in L; auto. destruct L as [Hp (m' & Em' & Cm)]. assert (m' = m) as -> by congruence. exists p. split; [exact Hp|]. split; [exact Cm|]. unfold pair_of in H. congruence.
Qed.
(** A full table gives that many different sources, each seen. *)
Lemma full_sources : forall s s' f t, sinv c s -> sinv c s' -> masked c s' -> expire_penalties t s = Some s' -> max_for c f <= npen (tab s' f) ->
  exists L, zlen L = max_for c f /\ ForallOrdPairs (fun a b => ~ same_source c a b) L /\ forall a, In a L -> wf a /\ x_af a = f /\ exists e act, seen s a = Some (e, act) /\ t <= e.
Proof.
  intros s s' f t I I' M Ee N. destruct (I' f) as [If Nf]. destruct (sources s' f I' M (by_addr (tab s' f)) (fun p H => H)) as (L & HL & D & Cl); [apply sorted_nodup, If|]. exists L. split; [rewrite HL, <- (ti_n _ _ If); lia|]. split; [exact D|].
  intros a Ha. destruct (Cl a Ha) as (Wa & Fa & p & _ & _ & Lp). split; [exact Wa|]. split; [exact Fa|]. pose proof (seen_expire ntop c Hc s s' t a I Wa Ee) as S. unfold SrclimitProof4.seen in S at 1. rewrite Lp in S. cbn [option_map] in S. destruct (seen s a) as [[e act]|]; [|discriminate]. cbn [live] in S. destruct (e <? t) eqn:Q; [discriminate|]. exists e, act. split; [reflexivity|lia].
Qed.
End Env.
