(** Proofs about the decision on a host key. *)
From Coq Require Import String.
From Verif Require Import Base Text MatchModel HostfileModel HostfileSpec HostfileProof2 HostcheckModel HostcheckSpec.
Local Open Scope Z_scope.

(** ** Entries *)
Inductive verdict (es : list hentry) (k : hkey) : hstatus -> option hentry -> Prop :=
| v_ok : forall e, ~ marked es k -> on_list es k -> In e es -> verdict es k HOST_OK (Some e)
| v_new : unknown es k -> verdict es k HOST_NEW None
| v_changed : forall e, conflicting es k -> In e es -> verdict es k HOST_CHANGED (Some e)
| v_revoked : marked es k -> verdict es k HOST_REVOKED None.

Lemma status_ok : forall es k st f, check_key_in_hostkeys es k = (st, f) -> verdict es k st f.
Proof.
  intros es k st f H. unfold check_key_in_hostkeys in H.
  assert (R : key_revoked es k = true <-> marked es k) by apply revoked_iff.
  destruct (find_key es k (sshkey_is_cert k) HOST_NEW None) as [s g] eqn:F.
  destruct (key_revoked es k) eqn:K; injection H as <- <-; [constructor; now apply R|].
  assert (N : ~ marked es k) by (intros M; apply R in M; congruence).
  unfold sshkey_is_cert in F. destruct (hk_cert k) as [cb|] eqn:C; cbn [is_some] in F.
  - destruct (find_key_cert es k HOST_NEW None) as [[E T]|(e & I & T & E)]; [congruence| |]; rewrite E in F; injection F as <- <-.
    + constructor. split; [exact N|]. split; [|congruence]. intros (e & I & O). apply (T e I). exact O.
    + econstructor; [exact N| |exact I]. exists e. now split.
  - destruct (find_key_plain es k HOST_NEW None C) as [[E T]|[(e & I & T & E)|(T & e & I & M & E)]]; rewrite E in F; injection F as <- <-.
    + constructor. split; [exact N|]. split.
      * intros (e & I & [(_ & O & _)|(_ & (b & O))]); [exact (T e I O)|congruence].
      * intros _ (e & I & O). exact (T e I O).
    + econstructor; [exact N| |exact I]. exists e. now split.
    + econstructor; [|exact I]. split; [exact C|]. split; [exact N|]. split; [|now exists e]. intros (e' & I' & O). exact (T e' I' O).
Qed.

(** ** Algorithms *)
Lemma in_algs_iff : forall cf n, in_algs cf n = true <-> match_pattern_list n (hc_algs cf) false = Some 1.
Proof.
  intros cf n. unfold in_algs. destruct (match_pattern_list n (hc_algs cf) false) as [r|]; [rewrite Z.eqb_eq|]; split; congruence.
Qed.
Lemma accepted_iff : forall cf k, accepted_alg cf k = true <-> permitted cf k.
Proof.
  intros cf k. unfold accepted_alg, permitted. destruct (hk_type k =? KEY_UNSPEC) eqn:U; [split; [discriminate|lia]|].
  split.
  - intros H. split; [lia|]. destruct ((hk_type k =? KEY_RSA) && _) eqn:A.
    + apply andb_true_iff in A as [A B]. apply Z.eqb_eq in A. apply orb_true_iff in B. destruct B as [B|B]; apply in_algs_iff in B; eexists; (split; [exact B|]); auto 10.
    + destruct ((hk_type k =? KEY_RSA_CERT) && _) eqn:A2.
      * apply andb_true_iff in A2 as [A2 B]. apply Z.eqb_eq in A2. apply orb_true_iff in B. destruct B as [B|B]; apply in_algs_iff in B; eexists; (split; [exact B|]); auto 10.
      * apply in_algs_iff in H. eexists. split; [exact H|]. now left.
  - intros (_ & n & M & D). apply in_algs_iff in M. destruct ((hk_type k =? KEY_RSA) && _) eqn:A; [reflexivity|]. destruct ((hk_type k =? KEY_RSA_CERT) && _) eqn:A2; [reflexivity|].
    destruct D as [-> |[[T D]|[T D]]]; [exact M| |]; rewrite (proj2 (Z.eqb_eq _ _) T) in *; cbn [andb] in *.
    + apply orb_false_iff in A. destruct A, D as [-> | ->]; congruence.
    + apply orb_false_iff in A2. destruct A2, D as [-> | ->]; congruence.
Qed.

(** ** Answers *)
Lemma skip_app : forall b s, Forall gap b -> skip_blank (b ++ s) = skip_blank s.
Proof.
  intros b s F. induction F as [|c b G F IH]; [reflexivity|]. cbn [app skip_blank]. unfold gap in G. replace ((c =? 32) || (c =? 9)) with true by lia. exact IH.
Qed.
Lemma skip_head : forall s, skip_blank s = [] \/ ~ gap (hd 0 (skip_blank s)).
Proof.
  induction s as [|c s IH]; [now left|]. cbn [skip_blank]. destruct ((c =? 32) || (c =? 9)) eqn:G; [exact IH|]. right. cbn [hd]. unfold gap. lia.
Qed.
Lemma word_ok : forall a, answer_word a (upto_blank (skip_blank a)).
Proof.
  assert (U : forall s, exists t, s = upto_blank s ++ t /\ Forall (fun c => ~ gap c /\ c <> 10) (upto_blank s) /\ (t = [] \/ gap (hd 0 t) \/ hd 0 t = 10)).
  { induction s as [|c s (t & E & F & D)]; [exists []; cbn; auto|]. cbn [upto_blank]. destruct ((c =? 32) || (c =? 9) || (c =? 10)) eqn:G.
    - exists (c :: s). split; [reflexivity|]. split; [constructor|]. right. cbn [hd]. unfold gap. lia.
    - exists t. cbn [app]. rewrite <- E. split; [reflexivity|]. split; [|exact D]. constructor; [unfold gap; lia|exact F]. }
  assert (K : forall s, exists b, s = b ++ skip_blank s /\ Forall gap b).
  { induction s as [|c s (b & E & F)]; [exists []; cbn; auto|]. cbn [skip_blank]. destruct ((c =? 32) || (c =? 9)) eqn:G.
    - exists (c :: b). cbn [app]. rewrite <- E. split; [reflexivity|]. constructor; [unfold gap; lia|exact F].
    - exists []. split; [reflexivity|constructor]. }
  intros a. destruct (K a) as (b & E & F). destruct (U (skip_blank a)) as (t & E2 & F2 & D). exists b, t. split; [now rewrite <- E2|]. split; [exact F|]. split; [exact F2|].
  destruct D as [D|[D|D]]; [now left| |now (right; left)]. right. right. split; [|exact D]. intros P. rewrite P in E2. cbn [app] in E2.
  destruct (skip_head a) as [S|S]; rewrite E2 in S; [rewrite S in D; destruct D; discriminate|exact (S D)].
Qed.
Lemma word_fun : forall a p, answer_word a p -> p = upto_blank (skip_blank a).
Proof.
  intros a p (b & t & -> & F & N & D). rewrite skip_app by exact F. clear F b.
  assert (T : t = [] \/ hd 0 t = 10 \/ gap (hd 0 t)) by (destruct D as [D|[D|[_ D]]]; auto).
  assert (U : upto_blank (p ++ t) = p).
  { clear D. induction N as [|c p G N IH].
    - destruct t as [|c t]; [reflexivity|]. cbn [app upto_blank]. destruct T as [T|T]; [discriminate|]. cbn [hd] in T. unfold gap in T. now replace ((c =? 32) || (c =? 9) || (c =? 10)) with true by lia.
    - cbn [app upto_blank]. destruct G as [G G2]. unfold gap in G. replace ((c =? 32) || (c =? 9) || (c =? 10)) with false by lia. now rewrite IH. }
  rewrite <- U at 1. f_equal. destruct p as [|c p].
  - cbn [app]. destruct t as [|c t]; [reflexivity|]. destruct D as [D|[D|[D _]]]; [discriminate| |now elim D]. cbn [hd] in D. subst c. reflexivity.
  - cbn [app skip_blank]. inversion N as [|? ? [G _] _]; subst. unfold gap in G. now replace ((c =? 32) || (c =? 9)) with false by lia.
Qed.

Lemma caseq_iff : forall p w, map tolower w = w -> (caseq p w = true <-> map tolower p = w).
Proof. intros p w E. unfold caseq. now rewrite E, beqb_eq. Qed.
Lemma no_iff : forall p, (beqb p [] || caseq p (bs "no")) = true <-> says_no p.
Proof. intros p. rewrite orb_true_iff, beqb_eq, caseq_iff by reflexivity. reflexivity. Qed.
Lemma yes_iff : forall fp p, (caseq p (bs "yes") || match fp with Some f => beqb p f | None => false end) = true <-> says_yes fp p.
Proof.
  intros fp p. rewrite orb_true_iff, caseq_iff by reflexivity. unfold says_yes. destruct fp as [f|]; [rewrite beqb_eq|]; split; intros [H|H]; try (now left); right; congruence.
Qed.
Lemma confirm_loop_ok : forall fp l, (fst (confirm_loop fp l) = true <-> consents fp l) /\ exists pre, l = pre ++ snd (confirm_loop fp l).
Proof.
  intros fp. induction l as [|a l [IH (pre & E)]]; cbn [confirm_loop].
  - split; [split; [discriminate|inversion 1]|now exists []].
  - destruct (beqb _ [] || _) eqn:N.
    + apply no_iff in N. split; [|now exists [a]]. cbn [fst]. split; [discriminate|]. intros C. inversion C as [? ? p W N' Y|? ? p W N' Y R]; subst; apply word_fun in W; subst p; now elim N'.
    + assert (N' : ~ says_no (upto_blank (skip_blank a))) by (intros X; apply no_iff in X; congruence).
      destruct (caseq _ _ || _) eqn:Y.
      * apply yes_iff in Y. split; [|now exists [a]]. cbn [fst]. split; [|reflexivity]. intros _. eapply co_yes; [apply word_ok|exact N'|exact Y].
      * assert (Y' : ~ says_yes fp (upto_blank (skip_blank a))) by (intros X; apply yes_iff in X; congruence).
        split; [|exists (a :: pre); cbn [app]; now rewrite <- E]. rewrite IH. split.
        -- intros C. eapply co_unclear; [apply word_ok|exact N'|exact Y'|exact C].
        -- intros C. inversion C as [? ? p W _ Y2|? ? p W _ _ R]; subst; [|exact R]. apply word_fun in W; subst p. now elim Y'.
Qed.

(** ** How the world changes *)
Section P.
Variable cf : hconf.

(** Everything a step may do. *)
Definition evolves (w w' : hworld) : Prop :=
  (exists es, hw_log w' = hw_log w ++ es /\
    forall fp, In (HAsk fp true) es -> hc_batch cf = false /\ exists pre s, hw_in w = pre ++ s /\ consents fp s) /\
  (exists pre, hw_in w = pre ++ hw_in w') /\ tighter (hw_o w) (hw_o w').
Lemma tighter_refl : forall o, tighter o o.
Proof. intros o. unfold tighter. tauto. Qed.
Lemma tighter_trans : forall a b c, tighter a b -> tighter b c -> tighter a c.
Proof.
  unfold tighter. intros a b c (A1 & A2 & A3 & A4 & A5 & A6 & A7 & A8 & A9) (B1 & B2 & B3 & B4 & B5 & B6 & B7 & B8 & B9).
  split; [exact (fun H => A1 (B1 H))|]. split; [exact (fun H => A2 (B2 H))|]. split; [exact (fun H => A3 (B3 H))|]. split; [exact (fun H => A4 (B4 H))|].
  split; [exact (fun H => A5 (B5 H))|]. split; [exact (fun H => A6 (B6 H))|]. clear - A7 A8 A9 B7 B8 B9. lia.
Qed.
Lemma evolves_refl : forall w, evolves w w.
Proof. intros w. split; [exists []; split; [now rewrite app_nil_r|intros fp []]|]. split; [now exists []|apply tighter_refl]. Qed.
Lemma evolves_trans : forall a b c, evolves a b -> evolves b c -> evolves a c.
Proof.
  intros a b c ((e1 & L1 & Q1) & (p1 & I1) & T1) ((e2 & L2 & Q2) & (p2 & I2) & T2). split.
  - exists (e1 ++ e2). split; [now rewrite L2, L1, app_assoc|]. intros fp H. apply in_app_or in H. destruct H as [H|H]; [now apply Q1|].
    destruct (Q2 fp H) as (B & pre & s & E & C). split; [exact B|]. exists (p1 ++ pre), s. split; [now rewrite I1, E, app_assoc|exact C].
  - split; [exists (p1 ++ p2); now rewrite I1, I2, app_assoc|]. eapply tighter_trans; eassumption.
Qed.
Lemma with_evolves : forall f w, (forall o, tighter o (f o)) -> evolves w (with_o f w).
Proof. intros f w F. split; [exists []; split; [cbn; now rewrite app_nil_r|intros fp []]|]. split; [now exists []|apply F]. Qed.
Lemma added_evolves : forall n k w, evolves w (added n k w).
Proof. intros n k w. split; [exists [HAdd n k]; split; [reflexivity|intros fp [H|[]]; discriminate]|]. split; [now exists []|apply tighter_refl]. Qed.
Lemma no_update_tighter : forall o, tighter o (no_update o).
Proof. intros o. unfold tighter, no_update. cbn. intuition discriminate. Qed.
Lemma set_ip_tighter : forall o, tighter o (set_check_ip false o).
Proof. intros o. unfold tighter, set_check_ip. cbn. intuition discriminate. Qed.
Lemma restricted_tighter : forall o, tighter o (restricted o).
Proof. intros o. unfold tighter, restricted. cbn. destruct (_ || _); intuition discriminate. Qed.
Lemma restricted_unexposed : forall o, unexposed (restricted o) /\ ho_update (restricted o) = false.
Proof. intros o. unfold unexposed, restricted. cbn. destruct ((ho_local o >? 0) || (ho_remote o >? 0)) eqn:G; repeat split; lia. Qed.
Lemma unexposed_tighter : forall o o', tighter o o' -> unexposed o -> unexposed o'.
Proof.
  unfold tighter, unexposed. intros o o' (_ & _ & A3 & A4 & A5 & A6 & A7 & A8 & A9) (B1 & B2 & B3 & B4 & B5 & B6 & B7).
  repeat split; try lia; match goal with |- ?x = false => destruct x eqn:E; [|reflexivity] end; intuition congruence.
Qed.
Lemma cancels_iff : forall o, cancels o = false <-> unexposed o.
Proof. intros o. unfold cancels, unexposed. destruct (ho_password o), (ho_kbdint o), (ho_agent o), (ho_x11 o); cbn [orb]; lia. Qed.

Lemma confirm_evolves : forall fp w b w', confirm (hc_batch cf) fp w = (b, w') -> evolves w w' /\ hw_o w' = hw_o w /\ (b = true -> asked cf fp w w').
Proof.
  intros fp w b w' H. unfold confirm in H. destruct (hc_batch cf) eqn:B.
  - injection H as <- <-. split; [|split; [reflexivity|discriminate]]. split; [eexists; split; [reflexivity|intros f [X|[]]; discriminate]|]. split; [now exists []|apply tighter_refl].
  - destruct (confirm_loop_ok fp (hw_in w)) as [C (pre & E)]. destruct (confirm_loop fp (hw_in w)) as [y r]. injection H as <- <-. cbn [fst snd] in *.
    assert (Y : y = true -> exists pre s, hw_in w = pre ++ s /\ consents fp s) by (intros ->; exists [], (hw_in w); split; [reflexivity|now apply C]).
    split; [|split; [reflexivity|]].
    + split; [eexists; split; [reflexivity|]|split; [now exists pre|apply tighter_refl]]. intros f [X|[]]. injection X as <- ->. auto.
    + intros ->. unfold asked. split; [eexists; split; [reflexivity|now left]|]. auto.
Qed.
Lemma asked_later : forall fp a b c, asked cf fp a b -> evolves b c -> asked cf fp a c.
Proof.
  intros fp a b c ((es & L & I) & B & C) ((e2 & L2 & _) & _). split; [|auto]. exists (es ++ e2). split; [now rewrite L2, L, app_assoc|apply in_or_app; now left].
Qed.
Lemma asked_earlier : forall fp a b c, evolves a b -> asked cf fp b c -> asked cf fp a c.
Proof.
  intros fp a b c ((e1 & L1 & _) & (p & I1) & _) ((es & L & I) & B & (pre & s & E & C)). split; [|split; [exact B|]].
  - exists (e1 ++ es). split; [now rewrite L, L1, app_assoc|apply in_or_app; now right].
  - exists (p ++ pre), s. split; [now rewrite I1, E, app_assoc|exact C].
Qed.
End P.
