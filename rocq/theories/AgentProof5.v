(** Where identities come from, what a connection sees of them, and single
    constraints read back. *)
From Coq Require Import String.
From Verif Require Import Base Text SshbufModel SshbufSpec SshbufProof WireSpec WireProof MatchModel MatchSpec MatchProof MiscNumModel Dec AuthOptModel AuthOptProof AgentModel AgentSpec AgentProof AgentProof2 AgentProof3 AgentProof4.
From Verif Require KrlProof5.
Open Scope Z_scope.

(** ** Origins *)
Lemma update_in : forall k f l i, In i (update_identity k f l) -> In i l \/ exists j, In j l /\ same_key k (i_key j) /\ i = f j.
Proof.
  intros k f. induction l as [|x r IH]; intros i H; [destruct H|]. cbn [update_identity] in H. destruct (sshkey_equal k (i_key x)) eqn:E.
  - destruct H as [<-|H]; [right; exists x; split; [now left|]; split; [now apply beqb_eq|reflexivity]|left; now right].
  - destruct H as [<-|H]; [left; now left|]. destruct (IH i H) as [K|(j & Hj & K)]; [left; now right|right; exists j; split; [now right|assumption]].
Qed.
Lemma update_out : forall k f l j, lookup_identity k l = Some j -> In (f j) (update_identity k f l).
Proof. intros k f. induction l as [|x r IH]; intros j H; cbn in *; [discriminate|]. destruct (sshkey_equal k (i_key x)); [injection H as <-; now left|right; auto]. Qed.
Inductive origin (c : cfg) (en : env) (g : core) (e : sock) (t : Z) (b : list Z) (i : ident) : Prop :=
| o_add : forall k cm q sk b1 b2 prov, (t = 17 \/ t = 25) -> c_priv c b = Some (k, b1) -> get_cstr b1 = Some (cm, b2) ->
    parse_key_constraints c en (length b2) (Some k) b2 no_cons = Good q -> check_sk c en e k (q_sk q) = Some sk ->
    i = mkI k cm prov (final_death c en q) (q_confirm q) sk (q_dcs q) ->
    (prov = None \/ exists j, In j (g_ids g) /\ same_key k (i_key j) /\ prov = i_provider j) -> origin c en g e t b i
| o_card : forall k cm q p prov, (t = 20 \/ t = 26) -> e_realpath en prov = Some p -> provider_allowed c p = true ->
    (socket_is_remote e = true -> c_remote_ok c = true) ->
    i = mkI k cm (Some p) (final_death c en q) (q_confirm q) None (q_dcs q) -> origin c en g e t b i.
Definition carded (c : cfg) (en : env) (p : list Z) (q : kcons) (i : ident) : Prop := exists k cm, i = mkI k cm (Some p) (final_death c en q) (q_confirm q) None (q_dcs q).
Lemma p11_ids : forall c en k cm p q g i, In i (g_ids (add_p11_identity c en k cm p q g)) -> In i (g_ids g) \/ carded c en p q i.
Proof.
  intros c en k cm p q g i H. unfold add_p11_identity in H. destruct (lookup_identity k (g_ids g)); [now left|]. cbn [g_ids] in H. apply in_app_or in H as [H|[<-|[]]]; [now left|].
  right. exists k, cm. reflexivity.
Qed.
Lemma p11_certs_ids : forall c en k cm p q ct g s i, In i (g_ids (fst (add_p11_certs c en k ct cm p q g s))) -> In i (g_ids g) \/ carded c en p q i.
Proof.
  intros c en k cm p q. induction ct as [|x r IH]; intros g s i H; cbn [add_p11_certs] in H; [now left|].
  destruct (_ || _); [now apply (IH g s)|]. destruct (e_mkcert en k x) as [k'|]; [|now apply (IH g s)].
  apply IH in H as [H|H]; [|now right]. now apply p11_ids in H.
Qed.
Lemma p11_keys_ids : forall c en p q l g s i, In i (g_ids (fst (add_p11_keys c en l p q g s))) -> In i (g_ids g) \/ carded c en p q i.
Proof.
  intros c en p q. induction l as [|[k lab] r IH]; intros g s i H; cbn [add_p11_keys] in H; [now left|]. cbv zeta in H.
  pose proof (p11_certs_ids c en k (match lab with Some s0 => if is_nil s0 then p else s0 | None => p end) p q (q_certs q) g s) as L.
  destruct (add_p11_certs c en k (q_certs q) _ p q g s) as [g1 s1]. cbn [fst] in L.
  destruct (_ && _); apply IH in H as [H|H]; try (now right); [|now apply L]. apply p11_ids in H as [H|H]; [now apply L|now right].
Qed.
(** The answer is failure only if nothing was added *)
Lemma p11_certs_flag : forall c en k cm p q ct g s, snd (add_p11_certs c en k ct cm p q g s) = false -> s = false /\ fst (add_p11_certs c en k ct cm p q g s) = g.
Proof.
  intros c en k cm p q. induction ct as [|x r IH]; intros g s H; cbn [add_p11_certs] in *; [auto|].
  destruct (_ || _); [now apply IH|]. destruct (e_mkcert en k x) as [k'|]; [|now apply IH]. apply IH in H as [H _]. discriminate.
Qed.
Lemma p11_keys_flag : forall c en p q l g s, snd (add_p11_keys c en l p q g s) = false -> s = false /\ fst (add_p11_keys c en l p q g s) = g.
Proof.
  intros c en p q. induction l as [|[k lab] r IH]; intros g s H; cbn [add_p11_keys] in *; [auto|]. cbv zeta in *.
  pose proof (p11_certs_flag c en k (match lab with Some s0 => if is_nil s0 then p else s0 | None => p end) p q (q_certs q) g s) as L.
  destruct (add_p11_certs c en k (q_certs q) _ p q g s) as [g1 s1]. cbn [fst snd] in L.
  destruct (_ && _); apply IH in H as [H1 H2]; [discriminate|]. destruct (L H1) as [-> ->]. split; [reflexivity|exact H2].
Qed.
Lemma dispatch_ids : forall c en g e t b g' e' r os i, dispatch c en g e t b = Some (g', e', r, os) -> In i (g_ids g') ->
  In i (g_ids g) \/ (r = success /\ origin c en g e t b i).
Proof.
  intros c en g e t b g' e' r os i D Hi. dcase D; try (injection D as <- <- <- <-; now left).
  - apply lock_inv in D as (_ & _ & K). rewrite K in Hi. now left.
  - apply lock_inv in D as (_ & _ & K). rewrite K in Hi. now left.
  - apply e_sign2 in D as (-> & _). now left.
  - apply e_request in D as (-> & _). now left.
  - apply e_add in D as (_ & _ & _ & [[-> _]|[A ->]]); [now left|].
    destruct (add_inv _ _ _ _ _ _ A) as (k & cm & q & sk & b1 & b2 & E1 & E2 & E3 & E4 & _ & _ & K). cbv zeta in K.
    assert (Ht : t = 17 \/ t = 25) by (unfold SSH2_AGENTC_ADD_IDENTITY, SSH2_AGENTC_ADD_ID_CONSTRAINED in *; lia).
    destruct K as [(_ & K & _)|(j & Lj & _ & K & _)]; rewrite K in Hi.
    + apply in_app_or in Hi as [Hi|[<-|[]]]; [now left|]. right. split; [reflexivity|]. apply (o_add c en g e t b _ k cm q sk b1 b2 None); auto.
    + apply update_in in Hi as [Hi|(j' & Hj & S & ->)]; [now left|]. right. split; [reflexivity|]. apply (o_add c en g e t b _ k cm q sk b1 b2 (i_provider j')); auto.
      right. exists j'. auto.
  - unfold process_remove_identity in D. destruct (get_key c b) as [[k x]|]; [|injection D as <- <- <- <-; now left].
    destruct (lookup_identity k (g_ids g)) as [j|]; [|injection D as <- <- <- <-; now left].
    destruct (negb (identity_permitted en j e None)); [injection D as <- <- <- <-; now left|]. destruct (g_n g <? 1); [discriminate|]. injection D as <- <- <- <-. left. now apply remove_sub in Hi.
  - apply e_card in D as (_ & _ & [(-> & _)|(ok & A & ->)]); [now left|].
    destruct (card_inv _ _ _ _ _ _ _ _ A) as (prov & pin & b1 & b2 & q & p & _ & _ & _ & R & RP & PA & K & _).
    assert (Ht : t = 20 \/ t = 26) by (unfold SSH_AGENTC_ADD_SMARTCARD_KEY, SSH_AGENTC_ADD_SMARTCARD_KEY_CONSTRAINED in *; lia).
    pose proof (p11_keys_flag c en p q (e_p11 en p pin) g false) as F. pose proof (p11_keys_ids c en p q (e_p11 en p pin) g false i) as I0. rewrite <- K in F, I0. cbn [fst snd] in *.
    destruct ok; [|left; destruct (F eq_refl) as [_ <-]; assumption].
    destruct (I0 Hi) as [I1|(k & cm & ->)]; [now left|]. right. split; [reflexivity|]. apply (o_card c en g e t b _ k cm q p prov); auto.
  - apply e_uncard in D as (_ & _ & _ & [->|(p & K & _)]); [now left|]. rewrite K in Hi. apply filter_In in Hi as [Hi _]. now left.
  - apply e_ext in D as (-> & _). now left.
Qed.

(** ** Visibility *)
Lemma walk_open : forall en i l from b, last_bind l = Some b ->
  (walk en i None from l = true /\ negb (b_fwd b && negb (is_some (@None (list Z))) && negb (permitted_by_dest_constraints en (Some (b_key b)) None i None)) = true
   <-> open_path en (i_dcs i) from l).
Proof.
  intros en i. induction l as [|x r IH]; intros from b L; [discriminate|]. cbn [last_bind] in L. cbn [walk]. destruct r as [|y r].
  - injection L as ->. cbn [is_some negb andb]. rewrite Bool.andb_false_r, Bool.andb_true_r. cbn [negb andb]. rewrite permits_iff. split.
    + intros [H1 H2]. apply open_last; [assumption|]. intros F. rewrite F in H2. cbn [andb] in H2. rewrite Bool.negb_involutive in H2.
      unfold permitted_by_dest_constraints in H2. apply existsb_exists in H2 as (d & Hd & K). exists d. split; [assumption|]. unfold dc_permits in K.
      apply andb_prop in K as [K _]. apply andb_prop in K as [K _]. now apply hop_listed.
    + intros H. inversion H as [? ? A B|? ? ? ? ? X]; subst; [|inversion X]. split; [assumption|]. destruct (b_fwd b); [|reflexivity]. cbn [andb]. rewrite Bool.negb_involutive.
      destruct (B eq_refl) as (d & Hd & K). apply existsb_exists. exists d. split; [assumption|]. unfold dc_permits. apply hop_listed in K. rewrite K. cbn [andb]. now destruct (h_user (d_to d)).
  - change (match y :: r with [] => Some x | _ :: _ => last_bind (y :: r) end = Some b) in L. cbv iota in L. specialize (IH (Some (b_key x)) b L).
    change (match y :: r with [] => negb (b_fwd x && is_some (@None (list Z))) && permitted_by_dest_constraints en from (Some (b_key x)) i None | _ :: _ => b_fwd x && permitted_by_dest_constraints en from (Some (b_key x)) i None && walk en i None (Some (b_key x)) (y :: r) end)
      with (b_fwd x && permitted_by_dest_constraints en from (Some (b_key x)) i None && walk en i None (Some (b_key x)) (y :: r)).
    split.
    + intros [H1 H2]. apply andb_prop in H1 as [H1 H3]. apply andb_prop in H1 as [H0 H1]. apply open_step; [assumption|now apply permits_iff|]. apply IH. auto.
    + intros H. inversion H as [|? ? ? A B C]; subst. apply IH in C as [C1 C2]. split; [|assumption]. apply permits_iff in B. rewrite A, B, C1. reflexivity.
Qed.
Lemma visible_iff : forall en i e, identity_permitted en i e None = true <-> visible en e i.
Proof.
  intros en i e. unfold identity_permitted, visible. destruct (i_dcs i) as [|d ds] eqn:E; [cbn [is_nil]; tauto|]. cbn [is_nil]. rewrite <- E.
  destruct (s_attempted e && is_nil (s_ids e)) eqn:A.
  - apply andb_prop in A as [A1 A2]. destruct (s_ids e); [|discriminate]. rewrite A1. split; [discriminate|]. intros [H|[[_ H]|H]]; [rewrite E in H; discriminate|discriminate|inversion H].
  - destruct (last_bind (s_ids e)) as [b|] eqn:L.
    + rewrite Bool.andb_true_iff. cbv zeta. rewrite (walk_open en i (s_ids e) None b L). split; [tauto|]. intros [H|[[H _]|H]]; [rewrite E in H; discriminate|rewrite H in L; discriminate|assumption].
    + assert (N : s_ids e = []). { destruct (s_ids e) as [|x r]; [reflexivity|]. exfalso. clear - L. revert x L. induction r as [|y r IH]; intros x L; [discriminate|]. apply (IH y). exact L. }
      rewrite N in *. cbn [is_nil] in A. rewrite Bool.andb_true_r in A. split; auto.
Qed.
Lemma list_keys_spec : forall en e l n acc, 0 <= zlen acc ->
  zlen acc + zlen (concat (map entry (filter (fun i => identity_permitted en i e None) l))) <= 134217728 -> Forall (fun i => zlen (i_comment i) <= 134217728) l ->
  list_keys en e l n acc = (n + zlen (filter (fun i => identity_permitted en i e None) l), acc ++ concat (map entry (filter (fun i => identity_permitted en i e None) l))).
Proof.
  intros en e. induction l as [|i r IH]; intros n acc Z0 Z1 F; [cbn; rewrite app_nil_r; f_equal; lia|]. apply Forall_cons_iff in F as [F1 F]. cbn [list_keys filter] in *.
  destruct (identity_permitted en i e None); cbn [negb]; [|now apply IH]. cbn [map concat] in *. rewrite zlen_app in Z1. unfold entry at 1 in Z1. rewrite zlen_app, !zlen_enc in Z1.
  set (tail := concat (map entry (filter (fun i0 => identity_permitted en i0 e None) r))) in *. pose proof (zlen_nonneg _ tail). pose proof (zlen_nonneg _ (k_blob (i_key i))). pose proof (zlen_nonneg _ (i_comment i)).
  rewrite KrlProof5.put_str_ok by lia. rewrite KrlProof5.put_str_ok by (rewrite zlen_app, zlen_enc; lia).
  rewrite IH; [|apply zlen_nonneg| |assumption]; fold tail.
  - rewrite zlen_cons. f_equal; [lia|]. unfold entry at 1. now rewrite <- !app_assoc.
  - rewrite !zlen_app, !zlen_enc. lia.
Qed.
