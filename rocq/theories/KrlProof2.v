From Verif Require Import Base KrlModel KrlSpec KrlProof.
Local Open Scope Z_scope.

Lemma lex_eq : forall a b, lex_cmp a b = 0 <-> a = b.
Proof.
  induction a as [|x a IH]; intros [|y b]; cbn [lex_cmp]; split; intros H; try discriminate; try reflexivity.
  - destruct (x =? y) eqn:E; [|destruct (x <? y); discriminate]. apply Z.eqb_eq in E. subst. f_equal. now apply IH.
  - injection H as -> ->. rewrite Z.eqb_refl. now apply IH.
Qed.
Lemma tree_find_in : forall x t, tree_find x t = true <-> In x t.
Proof.
  intros x. induction t as [|y t IH]; cbn [tree_find In]; [split; [discriminate|intros []]|]. rewrite Bool.orb_true_iff, IH, Z.eqb_eq, lex_eq.
  split; (intros [->|H]; [left; reflexivity|right; exact H]).
Qed.
Lemma tree_insert_in : forall x t z, In z (tree_insert x t) <-> z = x \/ In z t.
Proof.
  intros x. induction t as [|y t IH]; intros z; cbn [tree_insert In]; [firstorder congruence|]. destruct (lex_cmp x y =? 0) eqn:E.
  - apply Z.eqb_eq, lex_eq in E. subst y. cbn [In]. firstorder congruence.
  - destruct (lex_cmp x y <? 0); cbn [In]; [firstorder congruence|]. rewrite IH. tauto.
Qed.
Lemma ca_eqb_eq : forall a b, ca_eqb a b = true <-> a = b.
Proof. intros [a|] [b|]; cbn [ca_eqb]; try (split; congruence). rewrite beqb_eq. split; congruence. Qed.

(** What the per-CA part of a list holds. *)
Definition serials_of (l : list revoked_certs) (ca : option (list Z)) (s : Z) : Prop :=
  exists rc, In rc l /\ rc_ca rc = ca /\ inr s (rc_serials rc).
Definition ids_of (l : list revoked_certs) (ca : option (list Z)) (id : list Z) : Prop :=
  exists rc, In rc l /\ rc_ca rc = ca /\ In id (rc_ids rc).
Definition rc_wf (rc : revoked_certs) : Prop := chain 1 (rc_serials rc) /\ Forall (fun id => ~ In 0 id) (rc_ids rc) /\ ca_arg (rc_ca rc).
Definition certs_wf (l : list revoked_certs) : Prop := NoDup (map rc_ca l) /\ Forall rc_wf l.

Lemma certs_find_some : forall l ca, NoDup (map rc_ca l) ->
  match certs_find ca l with
  | Some rc => In rc l /\ rc_ca rc = ca /\ (forall rc', In rc' l -> rc_ca rc' = ca -> rc' = rc)
  | None => forall rc, In rc l -> rc_ca rc <> ca
  end.
Proof.
  induction l as [|x l IH]; intros ca N; cbn [certs_find]; [intros rc []|]. inversion N as [|? ? N1 N2]; subst. destruct (ca_eqb ca (rc_ca x)) eqn:E.
  - apply ca_eqb_eq in E. subst ca. split; [now left|]. split; [reflexivity|]. intros rc' [<- |H] Q; [reflexivity|]. exfalso. apply N1. rewrite <- Q. now apply in_map.
  - assert (Nx : rc_ca x <> ca) by (intros Q; rewrite <- Q in E; rewrite (proj2 (ca_eqb_eq (rc_ca x) (rc_ca x)) eq_refl) in E; discriminate).
    specialize (IH ca N2). destruct (certs_find ca l) as [rc|].
    + destruct IH as (A & B & C). split; [now right|]. split; [exact B|]. intros rc' [<- |H] Q; [congruence|now apply C].
    + intros rc [<- |H]; [exact Nx|now apply IH].
Qed.
Definition keeps_ca (f : revoked_certs -> revoked_certs) : Prop := forall rc, rc_ca (f rc) = rc_ca rc.
Lemma update_in : forall l ca f, NoDup (map rc_ca l) -> keeps_ca f -> exists old, (In old l \/ (old = mkRC ca [] [] /\ forall rc, In rc l -> rc_ca rc <> ca)) /\ rc_ca old = ca /\
  (forall rc, In rc (certs_update ca f l) <-> rc = f old \/ (In rc l /\ rc_ca rc <> ca)) /\ NoDup (map rc_ca (certs_update ca f l)).
Proof.
  induction l as [|x l IH]; intros ca f N K; cbn [certs_update].
  - exists (mkRC ca [] []). split; [right; split; [reflexivity|intros rc []]|]. split; [reflexivity|]. split.
    + intros rc. cbn [In]. split; [intros [<- |[]]; now left|intros [-> |[[] _]]; now left].
    + cbn [map]. constructor; [intros []|constructor].
  - inversion N as [|? ? N1 N2]; subst. destruct (ca_eqb ca (rc_ca x)) eqn:E.
    + apply ca_eqb_eq in E. subst ca. exists x. split; [left; now left|]. split; [reflexivity|]. split.
      * intros rc. cbn [In]. split.
        -- intros [<- |H]; [now left|right]. split; [now right|]. intros Q. apply N1. rewrite <- Q. now apply in_map.
        -- intros [-> |[[<- |H] Q]]; [now left|congruence|now right].
      * cbn [map]. rewrite K. now constructor.
    + assert (Nx : rc_ca x <> ca) by (intros Q; rewrite <- Q in E; rewrite (proj2 (ca_eqb_eq (rc_ca x) (rc_ca x)) eq_refl) in E; discriminate).
      destruct (IH ca f N2 K) as (old & A & B & C & D). exists old. split; [|split; [exact B|split]].
      * destruct A as [A|[A A']]; [left; now right|right]. split; [exact A|]. intros rc [<- |H]; [exact Nx|now apply A'].
      * intros rc. cbn [In]. rewrite C. split.
        -- intros [<- |[-> |[H Q]]]; [right; split; [now left|exact Nx]|now left|right; split; [now right|exact Q]].
        -- intros [-> |[[<- |H] Q]]; [right; now left|now left|right; right; now split].
      * cbn [map]. constructor; [|exact D]. intros Q. apply in_map_iff in Q. destruct Q as (rc & Q1 & Q2). apply C in Q2. destruct Q2 as [-> |[Q2 Q3]].
        -- apply Nx. rewrite <- Q1, K. exact B.
        -- apply N1. rewrite <- Q1. now apply in_map.
Qed.
Lemma old_serials : forall l ca old s, NoDup (map rc_ca l) -> (In old l \/ (old = mkRC ca [] [] /\ forall rc, In rc l -> rc_ca rc <> ca)) -> rc_ca old = ca ->
  (inr s (rc_serials old) <-> serials_of l ca s).
Proof.
  intros l ca old s N A B. split.
  - destruct A as [A|[-> _]]; [|intros Q; destruct (inr_nil _ Q)]. intros Q. exists old. auto.
  - intros (rc & Q1 & Q2 & Q3). destruct A as [A|[_ A]]; [|now apply A in Q1].
    pose proof (certs_find_some l ca N) as F. destruct (certs_find ca l) as [x|].
    + destruct F as (_ & _ & F). rewrite (F old A B), <- (F rc Q1 Q2). exact Q3.
    + now apply F in Q1.
Qed.
Lemma old_ids : forall l ca old id, NoDup (map rc_ca l) -> (In old l \/ (old = mkRC ca [] [] /\ forall rc, In rc l -> rc_ca rc <> ca)) -> rc_ca old = ca ->
  (In id (rc_ids old) <-> ids_of l ca id).
Proof.
  intros l ca old id N A B. split.
  - destruct A as [A|[-> _]]; [|intros []]. intros Q. exists old. auto.
  - intros (rc & Q1 & Q2 & Q3). destruct A as [A|[_ A]]; [|now apply A in Q1].
    pose proof (certs_find_some l ca N) as F. destruct (certs_find ca l) as [x|].
    + destruct F as (_ & _ & F). rewrite (F old A B), <- (F rc Q1 Q2). exact Q3.
    + now apply F in Q1.
Qed.

(** Revoking serials or a key id adds exactly those. *)
Definition add_serials lo hi := fun rc => mkRC (rc_ca rc) (insert_serial_range 0 (rc_serials rc) lo hi) (rc_ids rc).
Definition add_id id := fun rc => mkRC (rc_ca rc) (rc_serials rc) (tree_insert id (rc_ids rc)).
Lemma update_serials : forall l ca lo hi, certs_wf l -> ca_arg ca -> 1 <= lo -> lo <= hi < U64 ->
  certs_wf (certs_update ca (add_serials lo hi) l) /\
  (forall ca' s, serials_of (certs_update ca (add_serials lo hi) l) ca' s <-> serials_of l ca' s \/ (ca' = ca /\ lo <= s <= hi)) /\
  (forall ca' id, ids_of (certs_update ca (add_serials lo hi) l) ca' id <-> ids_of l ca' id).
Proof.
  intros l ca lo hi [N W] Hca Hlo Hhi. destruct (update_in l ca (add_serials lo hi) N) as (old & A & B & C & D); [intros rc; reflexivity|].
  assert (Wo : rc_wf old). { destruct A as [A|[-> _]]; [rewrite Forall_forall in W; now apply W|]. repeat split; [constructor|exact Hca]. }
  destruct Wo as (Wo1 & Wo2 & Wo3). destruct (insert_spec 0 (rc_serials old) 1 lo hi Wo1 ltac:(lia) Hhi) as [Ci Ri].
  split; [|split].
  - split; [exact D|]. rewrite Forall_forall in *. intros rc Hrc. apply C in Hrc. destruct Hrc as [-> |[Hrc _]]; [|now apply W].
    split; [exact Ci|]. split; [cbn [add_serials rc_ids]; now rewrite Forall_forall|exact Wo3].
  - intros ca' s. split.
    + intros (rc & Q1 & Q2 & Q3). apply C in Q1. destruct Q1 as [-> |[Q1 Q4]].
      * cbn [add_serials rc_ca rc_serials] in Q2, Q3. apply Ri in Q3. rewrite B in Q2. subst ca'. destruct Q3 as [Q3|Q3]; [left; now apply (old_serials l ca old)|right; auto].
      * left. exists rc. auto.
    + assert (In_new : In (add_serials lo hi old) (certs_update ca (add_serials lo hi) l)) by (apply C; now left).
      intros [Q|[-> Q]].
      * destruct (Bool.bool_dec (ca_eqb ca' ca) true) as [Eq|Ne].
        -- apply ca_eqb_eq in Eq. subst ca'. exists (add_serials lo hi old). split; [exact In_new|]. split; [exact B|]. apply Ri. left. now apply (old_serials l ca old).
        -- destruct Q as (rc & Q1 & Q2 & Q3). exists rc. split; [|auto]. apply C. right. split; [exact Q1|]. intros X. apply Ne. apply ca_eqb_eq. congruence.
      * exists (add_serials lo hi old). split; [exact In_new|]. split; [exact B|]. apply Ri. now right.
  - intros ca' id. split.
    + intros (rc & Q1 & Q2 & Q3). apply C in Q1. destruct Q1 as [-> |[Q1 Q4]].
      * cbn [add_serials rc_ca rc_ids] in Q2, Q3. rewrite B in Q2. subst ca'. now apply (old_ids l ca old).
      * exists rc. auto.
    + intros Q. destruct (Bool.bool_dec (ca_eqb ca' ca) true) as [Eq|Ne].
      * apply ca_eqb_eq in Eq. subst ca'. exists (add_serials lo hi old). split; [apply C; now left|]. split; [exact B|]. cbn [add_serials rc_ids]. now apply (old_ids l ca old).
      * destruct Q as (rc & Q1 & Q2 & Q3). exists rc. split; [|auto]. apply C. right. split; [exact Q1|]. intros X. apply Ne. apply ca_eqb_eq. congruence.
Qed.
Lemma update_ids : forall l ca id, certs_wf l -> ca_arg ca -> ~ In 0 id ->
  certs_wf (certs_update ca (add_id id) l) /\
  (forall ca' s, serials_of (certs_update ca (add_id id) l) ca' s <-> serials_of l ca' s) /\
  (forall ca' x, ids_of (certs_update ca (add_id id) l) ca' x <-> ids_of l ca' x \/ (ca' = ca /\ x = id)).
Proof.
  intros l ca id [N W] Hca Hid. destruct (update_in l ca (add_id id) N) as (old & A & B & C & D); [intros rc; reflexivity|].
  assert (Wo : rc_wf old). { destruct A as [A|[-> _]]; [rewrite Forall_forall in W; now apply W|]. repeat split; [constructor|exact Hca]. }
  destruct Wo as (Wo1 & Wo2 & Wo3). assert (In_new : In (add_id id old) (certs_update ca (add_id id) l)) by (apply C; now left).
  split; [|split].
  - split; [exact D|]. rewrite Forall_forall in *. intros rc Hrc. apply C in Hrc. destruct Hrc as [-> |[Hrc _]]; [|now apply W].
    split; [exact Wo1|]. split; [|exact Wo3]. cbn [add_id rc_ids]. rewrite Forall_forall. intros x Hx. apply tree_insert_in in Hx. destruct Hx as [-> |Hx]; [exact Hid|now apply Wo2].
  - intros ca' s. split.
    + intros (rc & Q1 & Q2 & Q3). apply C in Q1. destruct Q1 as [-> |[Q1 Q4]].
      * cbn [add_id rc_ca rc_serials] in Q2, Q3. rewrite B in Q2. subst ca'. now apply (old_serials l ca old).
      * exists rc. auto.
    + intros Q. destruct (Bool.bool_dec (ca_eqb ca' ca) true) as [Eq|Ne].
      * apply ca_eqb_eq in Eq. subst ca'. exists (add_id id old). split; [exact In_new|]. split; [exact B|]. cbn [add_id rc_serials]. now apply (old_serials l ca old).
      * destruct Q as (rc & Q1 & Q2 & Q3). exists rc. split; [|auto]. apply C. right. split; [exact Q1|]. intros X. apply Ne. apply ca_eqb_eq. congruence.
  - intros ca' x. split.
    + intros (rc & Q1 & Q2 & Q3). apply C in Q1. destruct Q1 as [-> |[Q1 Q4]].
      * cbn [add_id rc_ca rc_ids] in Q2, Q3. rewrite B in Q2. subst ca'. apply tree_insert_in in Q3. destruct Q3 as [-> |Q3]; [right; auto|left; now apply (old_ids l ca old)].
      * left. exists rc. auto.
    + intros [Q|[-> ->]].
      * destruct (Bool.bool_dec (ca_eqb ca' ca) true) as [Eq|Ne].
        -- apply ca_eqb_eq in Eq. subst ca'. exists (add_id id old). split; [exact In_new|]. split; [exact B|]. cbn [add_id rc_ids]. apply tree_insert_in. right. now apply (old_ids l ca old).
        -- destruct Q as (rc & Q1 & Q2 & Q3). exists rc. split; [|auto]. apply C. right. split; [exact Q1|]. intros X. apply Ne. apply ca_eqb_eq. congruence.
      * exists (add_id id old). split; [exact In_new|]. split; [exact B|]. cbn [add_id rc_ids]. apply tree_insert_in. now left.
Qed.

(** The check, in terms of what the list holds. *)
Lemma certs_revoked_spec : forall k ca serial id, certs_wf (k_certs k) ->
  certs_revoked ca serial id k = true <-> ids_of (k_certs k) ca id \/ (serial <> 0 /\ serials_of (k_certs k) ca serial).
Proof.
  intros k ca serial id [N W]. unfold certs_revoked. pose proof (certs_find_some (k_certs k) ca N) as F. destruct (certs_find ca (k_certs k)) as [rc|].
  - destruct F as (A & B & C). unfold is_cert_revoked.
    assert (I1 : tree_find id (rc_ids rc) = true <-> ids_of (k_certs k) ca id).
    { rewrite tree_find_in. split; [intros Q; exists rc; auto|]. intros (rc' & Q1 & Q2 & Q3). now rewrite <- (C rc' Q1 Q2). }
    assert (I2 : existsb (fun e => serial_cmp (serial, serial) e =? 0) (rc_serials rc) = true <-> serials_of (k_certs k) ca serial).
    { rewrite cmp_point. split; [intros Q; exists rc; auto|]. intros (rc' & Q1 & Q2 & Q3). now rewrite <- (C rc' Q1 Q2). }
    destruct (tree_find id (rc_ids rc)); [tauto|]. destruct (serial =? 0) eqn:E.
    + split; [discriminate|]. intros [Q|[Q _]]; [now apply I1|lia].
    + rewrite I2. split; [intros Q; right; split; [lia|exact Q]|]. intros [Q|[_ Q]]; [apply I1 in Q; discriminate|exact Q].
  - split; [discriminate|]. intros [(rc & Q1 & Q2 & _)|(_ & rc & Q1 & Q2 & _)]; now apply F in Q1.
Qed.

(** Two lists that hold the same give the same answers. *)
Definition same_content (a b : krl) : Prop :=
  (forall x, In x (k_keys a) <-> In x (k_keys b)) /\ (forall x, In x (k_sha1s a) <-> In x (k_sha1s b)) /\
  (forall x, In x (k_sha256s a) <-> In x (k_sha256s b)) /\
  (forall ca s, serials_of (k_certs a) ca s <-> serials_of (k_certs b) ca s) /\ (forall ca id, ids_of (k_certs a) ca id <-> ids_of (k_certs b) ca id).
Lemma bool_iff : forall a b : bool, (a = true <-> b = true) -> a = b.
Proof. intros [|] [|] H; try reflexivity; [symmetry; now apply H|now apply H]. Qed.
Lemma same_key : forall a b q, certs_wf (k_certs a) -> certs_wf (k_certs b) -> same_content a b -> is_key_revoked a q = is_key_revoked b q.
Proof.
  intros a b q Wa Wb (S1 & S2 & S3 & S4 & S5). unfold is_key_revoked.
  assert (T : forall x ta tb, (forall y, In y ta <-> In y tb) -> tree_find x ta = tree_find x tb) by (intros x ta tb H; apply bool_iff; rewrite !tree_find_in; apply H).
  destruct (q_sha1 q); [|reflexivity]. rewrite (T l _ _ S2). destruct (tree_find l (k_sha1s b)); [reflexivity|]. destruct (q_sha256 q); [|reflexivity]. rewrite (T l0 _ _ S3).
  destruct (tree_find l0 (k_sha256s b)); [reflexivity|]. destruct (q_plain q); [|reflexivity]. rewrite (T l1 _ _ S1). destruct (tree_find l1 (k_keys b)); [reflexivity|].
  destruct (q_cert q) as [[[serial id] ca]|]; [|reflexivity].
  assert (R : forall c, certs_revoked c serial id a = certs_revoked c serial id b) by (intros c; apply bool_iff; rewrite !certs_revoked_spec by assumption; now rewrite S4, S5).
  now rewrite !R.
Qed.
Lemma same_check : forall a b q, certs_wf (k_certs a) -> certs_wf (k_certs b) -> same_content a b -> ssh_krl_check_key a q = ssh_krl_check_key b q.
Proof.
  intros a b q Wa Wb S. unfold ssh_krl_check_key. rewrite (same_key a b q Wa Wb S). destruct (is_key_revoked b q); try reflexivity.
  destruct (q_cert q) as [[[serial id] ca]|]; [|reflexivity]. now apply same_key.
Qed.

(** ** Histories *)
Record holds (ops : list kop) (k : krl) : Prop := {
  h_wf : certs_wf (k_certs k);
  h_serials : forall ca s, serials_of (k_certs k) ca s <-> serial_said ops ca s;
  h_ids : forall ca id, ids_of (k_certs k) ca id <-> id_said ops ca id;
  h_keys : forall b, In b (k_keys k) <-> said op_key ops b;
  h_sha1s : forall h, In h (k_sha1s k) <-> said op_sha1 ops h;
  h_sha256s : forall h, In h (k_sha256s k) <-> said op_sha256 ops h;
  h_version : 0 <= k_version k < U64;
  h_date : k_date k = 0;
  h_flags : k_flags k = 0;
  h_comment : match k_comment k with Some c => ~ In 0 c | None => True end }.
Lemma said_snoc : forall A (P : kop -> A -> Prop) ops o x, said P (ops ++ [o]) x <-> said P ops x \/ P o x.
Proof.
  intros A P ops o x. unfold said. split.
  - intros (y & H & Q). apply in_app_or in H. destruct H as [H|[<- |[]]]; [left; now exists y|now right].
  - intros [(y & H & Q)|Q]; [exists y|exists o]; (split; [apply in_or_app; cbn [In]; auto|exact Q]).
Qed.
Lemma serial_snoc : forall ops o ca s, serial_said (ops ++ [o]) ca s <-> serial_said ops ca s \/ op_serial o ca s.
Proof. intros ops o ca s. exact (said_snoc _ (fun o x => op_serial o (fst x) (snd x)) ops o (ca, s)). Qed.
Lemma id_snoc : forall ops o ca s, id_said (ops ++ [o]) ca s <-> id_said ops ca s \/ op_id o ca s.
Proof. intros ops o ca s. exact (said_snoc _ (fun o x => op_id o (fst x) (snd x)) ops o (ca, s)). Qed.

Lemma holds_init : holds [] ssh_krl_init.
Proof.
  constructor; cbn [ssh_krl_init k_certs k_keys k_sha1s k_sha256s k_version k_date k_flags k_comment]; try reflexivity; try exact I.
  - split; constructor.
  - intros ca s. split; [intros (rc & [] & _)|intros (o & [] & _)].
  - intros ca s. split; [intros (rc & [] & _)|intros (o & [] & _)].
  - intros b. split; [intros []|intros (o & [] & _)].
  - intros b. split; [intros []|intros (o & [] & _)].
  - intros b. split; [intros []|intros (o & [] & _)].
  - unfold U64. lia.
Qed.
(** One step: what each field may gain. *)
Lemma holds_step : forall ops k o, holds ops k -> kop_ok o -> holds (ops ++ [o]) (kstep k o).
Proof.
  intros ops k o H Ok. destruct H as [W S I K1 K2 K3 V D F C].
  assert (Same : (forall ca s, ~ op_serial o ca s) -> (forall ca s, ~ op_id o ca s) -> (forall b, ~ op_key o b) -> (forall b, ~ op_sha1 o b) -> (forall b, ~ op_sha256 o b) ->
    forall k', k_certs k' = k_certs k -> k_keys k' = k_keys k -> k_sha1s k' = k_sha1s k -> k_sha256s k' = k_sha256s k -> 0 <= k_version k' < U64 -> k_date k' = 0 -> k_flags k' = 0 ->
    match k_comment k' with Some c => ~ In 0 c | None => True end -> holds (ops ++ [o]) k').
  { intros N1 N2 N3 N4 N5 k' E1 E2 E3 E4 E5 E6 E7 E8. constructor; rewrite ?E1, ?E2, ?E3, ?E4; try assumption.
    - intros ca s. rewrite serial_snoc, S. specialize (N1 ca s). tauto.
    - intros ca s. rewrite id_snoc, I. specialize (N2 ca s). tauto.
    - intros b. rewrite said_snoc, K1. specialize (N3 b). tauto.
    - intros b. rewrite said_snoc, K2. specialize (N4 b). tauto.
    - intros b. rewrite said_snoc, K3. specialize (N5 b). tauto. }
  assert (Ser : forall ca lo hi, ca_arg ca -> 1 <= lo -> lo <= hi < U64 -> (forall ca' s, op_serial o ca' s <-> ca' = ca /\ lo <= s <= hi) -> (forall ca s, ~ op_id o ca s) ->
    (forall b, ~ op_key o b) -> (forall b, ~ op_sha1 o b) -> (forall b, ~ op_sha256 o b) -> holds (ops ++ [o]) (with_certs (certs_update ca (add_serials lo hi) (k_certs k)) k)).
  { intros ca lo hi A B E G N2 N3 N4 N5. destruct (update_serials (k_certs k) ca lo hi W A B E) as (U1 & U2 & U3).
    constructor; cbn [with_certs k_certs k_keys k_sha1s k_sha256s k_version k_date k_flags k_comment]; try assumption.
    - intros ca' s. rewrite U2, serial_snoc, S, G. tauto.
    - intros ca' s. rewrite U3, id_snoc, I. specialize (N2 ca' s). tauto.
    - intros b. rewrite said_snoc, K1. specialize (N3 b). tauto.
    - intros b. rewrite said_snoc, K2. specialize (N4 b). tauto.
    - intros b. rewrite said_snoc, K3. specialize (N5 b). tauto. }
  assert (Ids : forall ca id, ca_arg ca -> ~ In 0 id -> (forall ca' x, op_id o ca' x <-> ca' = ca /\ x = id) -> (forall ca s, ~ op_serial o ca s) ->
    (forall b, ~ op_key o b) -> (forall b, ~ op_sha1 o b) -> (forall b, ~ op_sha256 o b) -> holds (ops ++ [o]) (with_certs (certs_update ca (add_id id) (k_certs k)) k)).
  { intros ca id A B G N1 N3 N4 N5. destruct (update_ids (k_certs k) ca id W A B) as (U1 & U2 & U3).
    constructor; cbn [with_certs k_certs k_keys k_sha1s k_sha256s k_version k_date k_flags k_comment]; try assumption.
    - intros ca' s. rewrite U2, serial_snoc, S. specialize (N1 ca' s). tauto.
    - intros ca' s. rewrite U3, id_snoc, I, G. tauto.
    - intros b. rewrite said_snoc, K1. specialize (N3 b). tauto.
    - intros b. rewrite said_snoc, K2. specialize (N4 b). tauto.
    - intros b. rewrite said_snoc, K3. specialize (N5 b). tauto. }
  assert (Key : forall b, (forall x, op_key o x <-> x = b) -> (forall ca s, ~ op_serial o ca s) -> (forall ca s, ~ op_id o ca s) -> (forall b, ~ op_sha1 o b) -> (forall b, ~ op_sha256 o b) ->
    holds (ops ++ [o]) (with_keys (tree_insert b (k_keys k)) k)).
  { intros b G N1 N2 N4 N5. constructor; cbn [with_keys k_certs k_keys k_sha1s k_sha256s k_version k_date k_flags k_comment]; try assumption.
    - intros ca s. rewrite serial_snoc, S. specialize (N1 ca s). tauto.
    - intros ca s. rewrite id_snoc, I. specialize (N2 ca s). tauto.
    - intros x. rewrite said_snoc, tree_insert_in, K1, G. tauto.
    - intros x. rewrite said_snoc, K2. specialize (N4 x). tauto.
    - intros x. rewrite said_snoc, K3. specialize (N5 x). tauto. }
  destruct o as [v|c|ca lo hi|ca id|q|h|h|q]; cbn [kop_ok] in Ok; cbn [kstep op_serial op_id op_key op_sha1 op_sha256] in *.
  - apply Same; try tauto; reflexivity || assumption.
  - apply Same; try tauto; reflexivity || assumption.
  - destruct Ok as (O1 & O2 & O3). unfold ssh_krl_revoke_cert_by_serial_range. destruct ((hi <? lo) || (lo =? 0)) eqn:E; cbn [or_same].
    + apply Same; try tauto; try reflexivity; try assumption. intros ca' s. lia.
    + apply Ser; try tauto; try lia. intros ca' s. split; [intros (<- & Q); split; [reflexivity|lia]|intros (<- & Q); split; [reflexivity|lia]].
  - destruct Ok as (O1 & O2). unfold ssh_krl_revoke_cert_by_key_id. apply Ids; try tauto. intros ca' x. split; intros (<- & Q); auto.
  - unfold ssh_krl_revoke_key_explicit. destruct (q_plain q) as [b|] eqn:E; cbn [or_same].
    + apply Key; try tauto. intros x. split; congruence.
    + apply Same; try tauto; try reflexivity; try assumption. congruence.
  - unfold ssh_krl_revoke_key_sha1. destruct (zlen h =? 20) eqn:E; cbn [negb or_same].
    + constructor; cbn [with_sha1s k_certs k_keys k_sha1s k_sha256s k_version k_date k_flags k_comment]; try assumption.
      * intros ca s. rewrite serial_snoc, S. cbn [op_serial]. tauto.
      * intros ca s. rewrite id_snoc, I. cbn [op_id]. tauto.
      * intros x. rewrite said_snoc, K1. cbn [op_key]. tauto.
      * intros x. rewrite said_snoc, tree_insert_in, K2. cbn [op_sha1]. split; [intros [-> |Q]; [right; split; [reflexivity|lia]|now left]|intros [Q|[-> Q]]; auto].
      * intros x. rewrite said_snoc, K3. cbn [op_sha256]. tauto.
    + apply Same; try tauto; try reflexivity; try assumption. intros b [-> Q]. lia.
  - unfold ssh_krl_revoke_key_sha256. destruct (zlen h =? 32) eqn:E; cbn [negb or_same].
    + constructor; cbn [with_sha256s k_certs k_keys k_sha1s k_sha256s k_version k_date k_flags k_comment]; try assumption.
      * intros ca s. rewrite serial_snoc, S. cbn [op_serial]. tauto.
      * intros ca s. rewrite id_snoc, I. cbn [op_id]. tauto.
      * intros x. rewrite said_snoc, K1. cbn [op_key]. tauto.
      * intros x. rewrite said_snoc, K2. cbn [op_sha1]. tauto.
      * intros x. rewrite said_snoc, tree_insert_in, K3. cbn [op_sha256]. split; [intros [-> |Q]; [right; split; [reflexivity|lia]|now left]|intros [Q|[-> Q]]; auto].
    + apply Same; try tauto; try reflexivity; try assumption. intros b [-> Q]. lia.
  - unfold ssh_krl_revoke_key. destruct (q_cert q) as [[[serial id] cak]|] eqn:E.
    + destruct Ok as (O1 & O2 & O3). destruct (serial =? 0) eqn:Z0.
      * cbn [or_same]. unfold ssh_krl_revoke_cert_by_key_id. apply Ids; try assumption.
        -- intros ca' x. split; [intros (-> & _ & ->); auto|intros (-> & ->); repeat split; lia].
        -- intros ca' s (_ & Q & _). lia.
        -- intros b (Q & _). discriminate.
        -- tauto.
        -- tauto.
      * unfold ssh_krl_revoke_cert_by_serial, ssh_krl_revoke_cert_by_serial_range. rewrite Z.ltb_irrefl, Z0. cbn [orb or_same]. apply Ser.
        -- exact O3.
        -- lia.
        -- lia.
        -- intros ca' s. split; [intros (-> & _ & ->); split; [reflexivity|lia]|intros (-> & Q); split; [reflexivity|lia]].
        -- intros ca' s (_ & Q & _). lia.
        -- intros b (Q & _). discriminate.
        -- tauto.
        -- tauto.
    + unfold ssh_krl_revoke_key_explicit. destruct (q_plain q) as [b|] eqn:Eb; cbn [or_same].
      * apply Key; try tauto. intros x. split; [intros (_ & Q); congruence|intros ->; auto].
      * apply Same; try tauto; try reflexivity; try assumption. intros b (_ & Q). congruence.
Qed.
Lemma holds_runs : forall ops, Forall kop_ok ops -> holds ops (kruns ssh_krl_init ops).
Proof.
  intros ops. pattern ops. apply rev_ind; [intros _; exact holds_init|]. intros o l IH F. apply Forall_app in F. destruct F as [F1 F2].
  unfold kruns. rewrite fold_left_app. cbn [fold_left]. apply holds_step; [now apply IH|]. now inversion F2.
Qed.

Lemma own_spec : forall ops k q, holds ops k ->
  match is_key_revoked k q with
  | KRevoked => own_match ops q
  | KOk => ~ own_match ops q /\ hashable q
  | KError => ~ hashable q
  end.
Proof.
  intros ops k q [W S I K1 K2 K3 _ _ _ _]. unfold is_key_revoked, own_match, hashable.
  destruct (q_sha1 q) as [h1|] eqn:E1; [|intros (X & _); congruence]. destruct (tree_find h1 (k_sha1s k)) eqn:F1.
  { left. exists h1. split; [reflexivity|]. apply K2. now apply tree_find_in. }
  destruct (q_sha256 q) as [h2|] eqn:E2; [|intros (_ & X & _); congruence]. destruct (tree_find h2 (k_sha256s k)) eqn:F2.
  { right; left. exists h2. split; [reflexivity|]. apply K3. now apply tree_find_in. }
  destruct (q_plain q) as [p|] eqn:E3; [|intros (_ & _ & X); congruence]. destruct (tree_find p (k_keys k)) eqn:F3.
  { right; right; left. exists p. split; [reflexivity|]. apply K1. now apply tree_find_in. }
  assert (N1 : ~ said op_sha1 ops h1) by (intros Q; apply K2, tree_find_in in Q; congruence).
  assert (N2 : ~ said op_sha256 ops h2) by (intros Q; apply K3, tree_find_in in Q; congruence).
  assert (N3 : ~ said op_key ops p) by (intros Q; apply K1, tree_find_in in Q; congruence).
  destruct (q_cert q) as [[[serial id] cak]|] eqn:Ec.
  2:{ split; [|repeat split; discriminate]. intros [(h & Q & X)|[(h & Q & X)|[(b & Q & X)|(? & ? & ? & ? & Q & _)]]]; [injection Q as <-; auto|injection Q as <-; auto|injection Q as <-; auto|discriminate]. }
  assert (R : forall ca, certs_revoked ca serial id k = true <-> id_said ops ca id \/ (serial <> 0 /\ serial_said ops ca serial)).
  { intros ca. rewrite certs_revoked_spec by assumption. now rewrite S, I. }
  destruct (certs_revoked (Some (q_blob cak)) serial id k) eqn:R1.
  { do 3 right. exists serial, id, cak, (Some (q_blob cak)). split; [reflexivity|]. split; [now left|]. now apply R. }
  destruct (certs_revoked None serial id k) eqn:R2.
  { do 3 right. exists serial, id, cak, None. split; [reflexivity|]. split; [now right|]. now apply R. }
  split; [|repeat split; discriminate].
  intros [(h & Q & X)|[(h & Q & X)|[(b & Q & X)|(serial' & id' & cak' & ca & Q & X & Y)]]]; [injection Q as <-; auto|injection Q as <-; auto|injection Q as <-; auto|].
  injection Q as <- <- <-. destruct X as [-> | ->]; apply R in Y; congruence.
Qed.
Lemma check_spec : forall ops k q, holds ops k ->
  match ssh_krl_check_key k q with
  | KRevoked => matches ops q
  | KOk => ~ matches ops q /\ checkable q
  | KError => ~ checkable q
  end.
Proof.
  intros ops k q H. unfold ssh_krl_check_key, matches, checkable. pose proof (own_spec ops k q H) as O. destruct (is_key_revoked k q).
  - destruct O as [O1 O2]. destruct (q_cert q) as [[[serial id] cak]|] eqn:Ec.
    + pose proof (own_spec ops k cak H) as P. destruct (is_key_revoked k cak).
      * destruct P as [P1 P2]. split; [|auto]. intros [Q|(s & i & c & Q & X)]; [tauto|]. injection Q as <- <- <-. tauto.
      * right. exists serial, id, cak. auto.
      * intros (_ & Q). tauto.
    + split; [|auto]. intros [Q|(s & i & c & Q & X)]; [tauto|discriminate].
  - now left.
  - intros (Q & _). tauto.
Qed.
