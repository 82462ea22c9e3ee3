(** The invariant of the agent, and the parsing of requests. *)
From Coq Require Import String.
From Verif Require Import Base Text SshbufModel SshbufSpec SshbufProof WireSpec WireProof MatchModel MatchSpec MatchProof MiscNumModel Dec AuthOptModel AuthOptProof AgentModel AgentSpec AgentProof.

(** ** Slots *)
Lemma set_nth_same : forall n e l x, nth_error l n = Some x -> nth_error (set_nth n e l) n = Some e.
Proof.
  intros n e l x H. unfold set_nth. assert (L : (n < length l)%nat) by (apply nth_error_Some; congruence).
  rewrite nth_error_app2; rewrite firstn_length; [|lia]. replace (n - Nat.min n (length l))%nat with O by lia. reflexivity.
Qed.
Lemma set_nth_other : forall n m e l x, nth_error l n = Some x -> n <> m -> nth_error (set_nth n e l) m = nth_error l m.
Proof.
  intros n m e l x H D. unfold set_nth. assert (L : (n < length l)%nat) by (apply nth_error_Some; congruence).
  destruct (Nat.lt_ge_cases m n) as [K|K].
  - rewrite nth_error_app1 by (rewrite firstn_length; lia).
    rewrite <- (firstn_skipn n l) at 2. rewrite nth_error_app1 by (rewrite firstn_length; lia). reflexivity.
  - rewrite nth_error_app2 by (rewrite firstn_length; lia). rewrite firstn_length. replace (m - Nat.min n (length l))%nat with (S (m - S n)) by lia.
    cbn [nth_error]. rewrite <- (firstn_skipn (S n) l) at 2. rewrite nth_error_app2 by (rewrite firstn_length; lia).
    f_equal. rewrite firstn_length. lia.
Qed.
Lemma Forall_set_nth : forall (P : sock -> Prop) n e l, Forall P l -> P e -> Forall P (set_nth n e l).
Proof.
  intros P n e l H He. unfold set_nth. apply Forall_app. split.
  - rewrite Forall_forall in *. intros x Hx. apply H. rewrite <- (firstn_skipn n l). apply in_or_app. now left.
  - constructor; [assumption|]. rewrite Forall_forall in *. intros x Hx. apply H. rewrite <- (firstn_skipn (S n) l). apply in_or_app. now right.
Qed.
Lemma first_unused_spec : forall l n, first_unused l = Some n -> exists e, nth_error l n = Some e /\ s_type e = AUTH_UNUSED.
Proof.
  induction l as [|e r IH]; intros n H; [discriminate|]. cbn [first_unused] in H. destruct (s_type e =? AUTH_UNUSED) eqn:E.
  - injection H as <-. exists e. split; [reflexivity|lia].
  - destruct (first_unused r) as [m|]; [|discriminate]. injection H as <-. cbn [nth_error]. now apply IH.
Qed.

(** ** The key table *)
Definition ids_of (l : list ident) : list (list Z) := map (fun i => k_blob (i_key i)) l.
Definition table_ok (g : core) : Prop := g_n g = zlen (g_ids g) /\ NoDup (ids_of (g_ids g)).
Lemma lookup_some : forall k l i, lookup_identity k l = Some i -> In i l /\ same_key k (i_key i).
Proof.
  intros k. induction l as [|x r IH]; intros i H; [discriminate|]. cbn [lookup_identity] in H. destruct (sshkey_equal k (i_key x)) eqn:E.
  - injection H as <-. split; [now left|]. now apply beqb_eq in E.
  - destruct (IH _ H). split; [now right|assumption].
Qed.
Lemma lookup_none : forall k l, lookup_identity k l = None <-> ~ In (k_blob k) (ids_of l).
Proof.
  intros k. induction l as [|x r IH]; cbn [lookup_identity ids_of map]; [split; [intros _ []|reflexivity]|].
  unfold sshkey_equal. destruct (beqb (k_blob k) (k_blob (i_key x))) eqn:E.
  - apply beqb_eq in E. split; [discriminate|]. intros H. destruct H. left. now symmetry.
  - apply beqb_neq in E. rewrite IH. unfold ids_of. split; [intros H [K|K]; [now apply E|now apply H]|intros H K; apply H; now right].
Qed.
Lemma update_ids : forall k f l, (forall i, same_key k (i_key i) -> same_key k (i_key (f i))) -> ids_of (update_identity k f l) = ids_of l.
Proof.
  intros k f l Hf. induction l as [|x r IH]; [reflexivity|]. cbn [update_identity]. destruct (sshkey_equal k (i_key x)) eqn:E.
  - apply beqb_eq in E. cbn [ids_of map]. f_equal. rewrite <- (Hf x E). exact E.
  - cbn [ids_of map]. f_equal. exact IH.
Qed.
Lemma update_zlen : forall k f l, zlen (update_identity k f l) = zlen l.
Proof. intros k f. induction l as [|x r IH]; [reflexivity|]. cbn [update_identity]. destruct (sshkey_equal k (i_key x)); rewrite !zlen_cons; [reflexivity|]. now rewrite IH. Qed.
Lemma remove_sub : forall k l i, In i (remove_identity k l) -> In i l.
Proof. intros k. induction l as [|x r IH]; intros i H; [assumption|]. cbn [remove_identity] in H. destruct (sshkey_equal k (i_key x)); [now right|]. destruct H as [H|H]; [now left|right; now apply IH]. Qed.
Lemma remove_zlen : forall k l i, lookup_identity k l = Some i -> zlen (remove_identity k l) = zlen l - 1.
Proof.
  intros k. induction l as [|x r IH]; intros i H; [discriminate|]. cbn [lookup_identity remove_identity] in *. destruct (sshkey_equal k (i_key x)); rewrite zlen_cons; [lia|].
  rewrite zlen_cons. rewrite (IH _ H). lia.
Qed.
Lemma in_ids : forall l i, In i l -> In (k_blob (i_key i)) (ids_of l).
Proof. intros l i H. unfold ids_of. now apply (in_map (fun i => k_blob (i_key i))). Qed.
Lemma sub_nodup : forall k l, NoDup (ids_of l) -> NoDup (ids_of (remove_identity k l)).
Proof.
  intros k. induction l as [|x r IH]; intros H; [constructor|]. cbn [remove_identity]. apply NoDup_cons_iff in H as [N H]. destruct (sshkey_equal k (i_key x)); [assumption|].
  cbn [ids_of map]. constructor; [|now apply IH]. intros K. apply N. apply in_map_iff in K as (y & Ey & Hy). rewrite <- Ey. apply in_ids. now apply remove_sub with (k := k).
Qed.
Lemma filter_nodup : forall f l, NoDup (ids_of l) -> NoDup (ids_of (filter f l)).
Proof.
  intros f. induction l as [|x r IH]; intros H; [constructor|]. apply NoDup_cons_iff in H as [N H]. cbn [filter]. destruct (f x); [|now apply IH].
  cbn [ids_of map]. constructor; [|now apply IH]. intros K. apply N. apply in_map_iff in K as (y & Ey & Hy). rewrite <- Ey. apply in_ids. now apply filter_In in Hy.
Qed.
Lemma ids_app : forall a b, ids_of (a ++ b) = ids_of a ++ ids_of b.
Proof. intros. unfold ids_of. apply map_app. Qed.
Lemma nodup_snoc : forall l (x : list Z), NoDup l -> ~ In x l -> NoDup (l ++ [x]).
Proof.
  induction l as [|y r IH]; intros x H N; [constructor; [easy|constructor]|]. apply NoDup_cons_iff in H as [N1 H]. cbn [app]. constructor.
  - intros K. apply in_app_or in K as [K|[K|[]]]; [now apply N1|]. subst. apply N. now left.
  - apply IH; [assumption|]. intros K. apply N. now right.
Qed.
Lemma p11_table : forall c en k cm p q g, table_ok g -> table_ok (add_p11_identity c en k cm p q g).
Proof.
  intros c en k cm p q g [N D]. unfold add_p11_identity. destruct (lookup_identity k (g_ids g)) eqn:E; [split; assumption|].
  split; cbn [g_n g_ids]; [rewrite zlen_app, N; reflexivity|]. rewrite ids_app. apply nodup_snoc; [assumption|]. now apply lookup_none.
Qed.
Lemma p11_certs_table : forall c en k cm p q ct g s, table_ok g -> table_ok (fst (add_p11_certs c en k ct cm p q g s)).
Proof.
  intros c en k cm p q. induction ct as [|x r IH]; intros g s T; cbn [add_p11_certs]; [assumption|].
  destruct (_ || _); [now apply IH|]. destruct (e_mkcert en k x) as [k'|]; [|now apply IH]. apply IH. now apply p11_table.
Qed.
Lemma p11_keys_table : forall c en p q l g s, table_ok g -> table_ok (fst (add_p11_keys c en l p q g s)).
Proof.
  intros c en p q. induction l as [|[k lab] r IH]; intros g s T; cbn [add_p11_keys]; [assumption|].
  cbv zeta. pose proof (p11_certs_table c en k (match lab with Some s0 => if is_nil s0 then p else s0 | None => p end) p q (q_certs q) g s T) as L.
  destruct (add_p11_certs c en k (q_certs q) _ p q g s) as [g1 s1]. cbn [fst] in L.
  destruct (_ && _); apply IH; [now apply p11_table|assumption].
Qed.
Lemma reap_loop_ids : forall now l d, fst (reap_loop now l d) = filter (fun i => negb (expired now i)) l.
Proof.
  intros now. induction l as [|i r IH]; intros d; [reflexivity|]. cbn [reap_loop filter]. unfold expired at 1. destruct (i_death i =? 0) eqn:E.
  - specialize (IH d). destruct (reap_loop now r d). cbn [fst negb andb] in *. now rewrite IH.
  - cbn [negb andb]. destruct (i_death i <=? now) eqn:E2; [apply IH|].
    cbn [negb]. specialize (IH (if d =? 0 then i_death i else Z.min d (i_death i))). destruct (reap_loop now r _). cbn [fst] in *. now rewrite IH.
Qed.
Lemma dispatch_table : forall c en g e t b g' e' r os, table_ok g -> dispatch c en g e t b = Some (g', e', r, os) -> table_ok g'.
Proof.
  intros c en g e t b g' e' r os T D. dcase D; try (injection D as <- <- <- <-; assumption).
  - unfold process_lock_agent in D. destruct (dec_cstring b) as [[pw x]|]; [|discriminate].
    repeat match type of D with (if ?x then _ else _) = _ => destruct x end; injection D as <- <- <- <-; assumption.
  - unfold process_lock_agent in D. destruct (dec_cstring b) as [[pw x]|]; [|discriminate].
    repeat match type of D with (if ?x then _ else _) = _ => destruct x end; injection D as <- <- <- <-; assumption.
  - apply e_removeall in D as (-> & _ & _). split; [reflexivity|constructor].
  - apply e_sign2 in D as (-> & _ & _). assumption.
  - apply e_request in D as (-> & _ & _). assumption.
  - apply e_add in D as (_ & _ & _ & [[-> _]|[A _]]); [assumption|].
    destruct (add_inv _ _ _ _ _ _ A) as (k & cm & q & sk & b1 & b2 & _ & _ & _ & _ & _ & _ & [(L & I & N)|(i & L & _ & I & N)]); destruct T as [TN TD].
    + split; rewrite I; [rewrite zlen_app, N, TN; reflexivity|]. rewrite ids_app. apply nodup_snoc; [assumption|]. now apply lookup_none.
    + split; rewrite I; [rewrite update_zlen; congruence|]. rewrite update_ids; [assumption|]. intros j _. reflexivity.
  - unfold process_remove_identity in D. destruct (get_key c b) as [[k x]|]; [|injection D as <- <- <- <-; assumption].
    destruct (lookup_identity k (g_ids g)) as [i|] eqn:L; [|injection D as <- <- <- <-; assumption].
    destruct (negb (identity_permitted en i e None)); [injection D as <- <- <- <-; assumption|]. destruct (g_n g <? 1); [discriminate|]. injection D as <- <- <- <-.
    destruct T as [TN TD]. split; cbn [g_n g_ids]; [rewrite (remove_zlen _ _ _ L); lia|now apply sub_nodup].
  - apply e_removeall in D as (-> & _ & _). split; [reflexivity|constructor].
  - apply e_card in D as (_ & _ & [(-> & _)|(ok & A & _)]); [assumption|].
    destruct (card_inv _ _ _ _ _ _ _ _ A) as (prov & pin & b1 & b2 & q & p & _ & _ & _ & _ & _ & _ & K & _).
    pose proof (p11_keys_table c en p q (e_p11 en p pin) g false T) as X. rewrite <- K in X. exact X.
  - apply e_uncard in D as (_ & _ & _ & [->|(p & I & N)]); [assumption|]. destruct T as [TN TD]. split; [lia|]. rewrite I. now apply filter_nodup.
  - apply e_ext in D as (-> & _). assumption.
Qed.

(** ** Bindings *)
Lemma scan_none : forall k sid l, bind_scan k sid l = None <-> Forall (fun b => b_fwd b = true /\ b_sid b <> sid) l.
Proof.
  intros k sid. induction l as [|b r IH]; cbn [bind_scan]; [split; [constructor|reflexivity]|].
  destruct (b_fwd b) eqn:F; cbn [negb].
  - destruct (beqb sid (b_sid b)) eqn:E.
    + apply beqb_eq in E. split; [discriminate|]. intros H. apply Forall_cons_iff in H as [[_ H] _]. congruence.
    + apply beqb_neq in E. rewrite IH. split; [intros H; constructor; [split; congruence|assumption]|]. intros H. now apply Forall_cons_iff in H as [_ H].
  - split; [discriminate|]. intros H. apply Forall_cons_iff in H as [[H _] _]. congruence.
Qed.
Lemma forwards_snoc : forall l b, Forall (fun b => b_fwd b = true) l -> forwards_then_any (l ++ [b]).
Proof.
  induction l as [|x r IH]; intros b H; [exact I|]. apply Forall_cons_iff in H as [Hx H]. cbn [app]. destruct (r ++ [b]) eqn:E; [exact I|].
  rewrite <- E. specialize (IH b H). rewrite E in *. cbn. split; assumption.
Qed.
(** What a bind request does: the cases of its answer *)
Inductive bind_case (c : cfg) (e : sock) (b : list Z) : sock -> bool -> Prop :=
| bc_malformed : bind_case c e b (mkS (s_type e) (s_in e) (s_out e) (s_ids e) true) false
| bc_long : forall k b1 sid b2 sig b3 fwd b4, get_key c b = Some (k, b1) -> get_str b1 = Some (sid, b2) -> get_str b2 = Some (sig, b3) -> get_int 1 b3 = Some (fwd, b4) ->
    128 < zlen sid -> bind_case c e b (mkS (s_type e) (s_in e) (s_out e) (s_ids e) true) true
| bc_known : forall k b1 sid b2 sig b3 fwd b4 x, get_key c b = Some (k, b1) -> get_str b1 = Some (sid, b2) -> get_str b2 = Some (sig, b3) -> get_int 1 b3 = Some (fwd, b4) ->
    zlen sid <= 128 -> In x (s_ids e) -> same_key k (b_key x) -> b_sid x = sid ->
    bind_case c e b (mkS (s_type e) (s_in e) (s_out e) (s_ids e) true) true
| bc_new : forall k b1 sid b2 sig b3 fwd b4, get_key c b = Some (k, b1) -> get_str b1 = Some (sid, b2) -> get_str b2 = Some (sig, b3) -> get_int 1 b3 = Some (fwd, b4) ->
    zlen sid <= 128 -> c_verify c k sig sid = true -> Forall (fun b => b_fwd b = true /\ b_sid b <> sid) (s_ids e) -> zlen (s_ids e) < 16 ->
    bind_case c e b (mkS (s_type e) (s_in e) (s_out e) (s_ids e ++ [mkHS k sid (negb (fwd =? 0))]) true) true.
Lemma scan_true : forall k sid l, bind_scan k sid l = Some true -> exists x, In x l /\ same_key k (b_key x) /\ b_sid x = sid.
Proof.
  intros k sid. induction l as [|b r IH]; cbn [bind_scan]; [discriminate|]. intros H. destruct (negb (b_fwd b)); [discriminate|].
  destruct (beqb sid (b_sid b)) eqn:E.
  - injection H as H. apply beqb_eq in E. apply beqb_eq in H. exists b. split; [now left|]. split; [assumption|now symmetry].
  - destruct (IH H) as (x & Hx & K). exists x. split; [now right|assumption].
Qed.
Lemma bind_cases : forall c e b e' ok, process_ext_session_bind c e b = (e', ok) -> bind_case c e b e' ok.
Proof.
  intros c e b e' ok H. unfold process_ext_session_bind in H. cbv zeta in H.
  destruct (get_key c b) as [[k b1]|] eqn:E1; [|injection H as <- <-; constructor].
  destruct (get_str b1) as [[sid b2]|] eqn:E2; [|injection H as <- <-; constructor].
  destruct (get_str b2) as [[sig b3]|] eqn:E3; [|injection H as <- <-; constructor].
  destruct (get_int 1 b3) as [[fwd b4]|] eqn:E4; [|injection H as <- <-; constructor].
  destruct (AGENT_MAX_SID_LEN <? zlen sid) eqn:E5; [injection H as <- <-; eapply bc_long; eauto; unfold AGENT_MAX_SID_LEN in E5; lia|].
  destruct (c_verify c k sig sid) eqn:E6; cbn [negb] in H; [|injection H as <- <-; constructor].
  cbn [s_type s_in s_out s_ids] in H. unfold AGENT_MAX_SID_LEN in E5.
  destruct (bind_scan k sid (s_ids e)) as [r|] eqn:E7.
  - injection H as <- <-. destruct r; [|constructor]. destruct (scan_true _ _ _ E7) as (x & Hx & Hk & Hs). eapply bc_known; eauto. lia.
  - destruct (AGENT_MAX_SESSION_IDS <=? zlen (s_ids e)) eqn:E8; [injection H as <- <-; constructor|]. injection H as <- <-.
    unfold AGENT_MAX_SESSION_IDS in E8. eapply bc_new; eauto; [lia|now apply scan_none in E7|lia].
Qed.
Lemma bind_keeps : forall c e b e' ok, process_ext_session_bind c e b = (e', ok) -> bindings_ok c (s_ids e) -> bindings_ok c (s_ids e').
Proof.
  intros c e b e' ok H B. apply bind_cases in H. destruct H as [| | |k b1 sid b2 sig b3 fwd b4 _ _ _ _ L V F N]; try exact B.
  cbn [s_ids]. destruct B as (B1 & B2 & B3 & B4). split; [|split; [|split]].
  - apply forwards_snoc. revert F. apply Forall_impl. now intros a [? _].
  - rewrite map_app. apply nodup_snoc; [assumption|]. intros K. apply in_map_iff in K as (x & Ex & Hx). rewrite Forall_forall in F. now apply (F x).
  - rewrite zlen_app. change (zlen [mkHS k sid (negb (fwd =? 0))]) with 1. lia.
  - apply Forall_app. split; [assumption|]. constructor; [|constructor]. cbn [b_sid b_key]. split; [assumption|]. now exists sig.
Qed.

(** ** What a request does to its connection *)
Lemma lock_inv : forall c en l g e b g' e' r os, process_lock_agent c en l g e b = Some (g', e', r, os) -> e' = e /\ os = [] /\ g_ids g' = g_ids g.
Proof.
  intros c en l g e b g' e' r os D. unfold process_lock_agent in D. destruct (dec_cstring b) as [[pw x]|]; [|discriminate].
  repeat match type of D with (if ?x then _ else _) = _ => destruct x end; injection D as <- <- <- <-; auto.
Qed.
Lemma dispatch_sock : forall c en g e t b g' e' r os, dispatch c en g e t b = Some (g', e', r, os) ->
  e' = e \/ (t = 27 /\ g_locked g = false /\ exists name b1 ok, get_cstr b = Some (name, b1) /\ name = bs "session-bind@openssh.com" /\ process_ext_session_bind c e b1 = (e', ok) /\ r = status ok).
Proof.
  intros c en g e t b g' e' r os D. dcase D; try (injection D as <- <- <- <-; now left).
  - apply lock_inv in D as (-> & _). now left.
  - apply lock_inv in D as (-> & _). now left.
  - apply e_sign2 in D as (_ & -> & _). now left.
  - apply e_request in D as (_ & -> & _). now left.
  - apply e_add in D as (_ & -> & _). now left.
  - apply e_remove in D as (_ & -> & _). now left.
  - apply e_card in D as (_ & -> & _). now left.
  - apply e_uncard in D as (_ & -> & _). now left.
  - apply e_ext in D as (_ & _ & [[-> _]|(name & b1 & E & N & P & R)]); [now left|]. right. split; [unfold SSH_AGENTC_EXTENSION in *; lia|].
    split; [|exists name, b1, (beqb r success); auto].
    unfold SSH_AGENTC_UNLOCK, SSH_AGENTC_EXTENSION in *. destruct (g_locked g); [|reflexivity]. cbn [andb] in T. lia.
Qed.
Lemma bind_type : forall c e b e' ok, process_ext_session_bind c e b = (e', ok) -> s_type e' = s_type e /\ s_in e' = s_in e /\ s_out e' = s_out e /\ s_attempted e' = true.
Proof. intros c e b e' ok H. apply bind_cases in H. destruct H; auto. Qed.

(** ** The invariant *)
Definition sock_ok (c : cfg) (e : sock) : Prop :=
  is_bytes (s_in e) /\ bindings_ok c (s_ids e) /\ (s_type e <> AUTH_CONNECTION -> s_ids e = [] /\ s_attempted e = false).
Definition Inv (c : cfg) (a : agent) : Prop := table_ok (a_core a) /\ Forall (sock_ok c) (a_socks a).
Lemma no_bindings : forall c, bindings_ok c [].
Proof. intros c. split; [exact I|]. split; [constructor|]. split; [rewrite zlen_nil; lia|constructor]. Qed.
Lemma unused_ok : forall c, sock_ok c unused_sock.
Proof. intros c. split; [constructor|]. split; [apply no_bindings|]. auto. Qed.
Lemma get_str_rest : forall l v r, get_str l = Some (v, r) -> is_bytes l -> is_bytes v /\ is_bytes r.
Proof. intros l v r H B. destruct (get_str_spec _ _ _ B H) as (_ & _ & ? & ?). auto. Qed.
Lemma step_inv : forall c a ev a' os, Inv c a -> ev_ok ev -> step c a ev = Run a' os -> Inv c a'.
Proof.
  intros c a ev a' os [T S] Hev H. destruct ev as [|n bytes|n en|n|n count|now|].
  - injection H as <- <-. split; [assumption|]. cbn [a_socks]. unfold new_socket. destruct (first_unused (a_socks a)) as [n|] eqn:F.
    + destruct (first_unused_spec _ _ F) as (e & N & U). rewrite N. apply Forall_set_nth; [assumption|].
      rewrite Forall_forall in S. destruct (S e (nth_error_In _ _ N)) as (_ & _ & K). unfold AUTH_UNUSED, AUTH_CONNECTION in *. destruct K as [K1 K2]; [lia|].
      split; [constructor|]. cbn [s_ids s_attempted s_type]. rewrite K1. split; [apply no_bindings|auto].
    + apply Forall_app. split; [assumption|]. constructor; [split; [constructor|split; [apply no_bindings|now auto]]|].
      apply Forall_forall. intros x Hx. apply repeat_spec in Hx. subst. apply unused_ok.
  - cbn [step] in H. destruct (conn a n) as [e|] eqn:C; [|injection H as <- <-; split; assumption].
    destruct (put bytes (Some (s_in e))) as [i|] eqn:P; [|discriminate]. injection H as <- <-. split; [assumption|]. apply Forall_set_nth; [assumption|].
    destruct (conn_nth _ _ _ C) as [N Ty]. rewrite Forall_forall in S. destruct (S e (nth_error_In _ _ N)) as (B & K1 & K2).
    unfold put in P. destruct (SSHBUF_SIZE_MAX <? _); [discriminate|]. injection P as <-. split; [apply is_bytes_app; split; assumption|]. split; assumption.
  - apply message_inv in H as [(-> & [->|[_ ->]])|H]; [split; assumption|split; [assumption|apply Forall_set_nth; [assumption|apply unused_ok]]|].
    destruct H as (e & req & rest & type & body & g & e1 & reply & os1 & out & C & G & Ty & D & P & -> & ->).
    split; [now apply (dispatch_table _ _ _ _ _ _ _ _ _ _ T D)|]. cbn [a_socks]. apply Forall_set_nth; [assumption|].
    destruct (conn_nth _ _ _ C) as [N TyC]. rewrite Forall_forall in S. destruct (S e (nth_error_In _ _ N)) as (B & K1 & K2).
    destruct (get_str_rest _ _ _ G B) as [_ R].
    apply dispatch_sock in D as [->|(_ & _ & name & b1 & ok & _ & _ & Pb & _)].
    + split; [exact R|]. split; [exact K1|]. intros X. exfalso. now apply X.
    + destruct (bind_type _ _ _ _ _ Pb) as (X1 & X2 & X3 & X4). unfold answered, sock_ok. cbn [s_in s_ids s_type s_attempted]. rewrite X1, X2.
      split; [exact R|]. split; [now apply (bind_keeps _ _ _ _ _ Pb)|]. intros X. exfalso. now apply X.
  - cbn [step] in H. destruct (conn a n); injection H as <- <-; split; try assumption. apply Forall_set_nth; [assumption|apply unused_ok].
  - cbn [step] in H. destruct (conn a n) as [e|] eqn:C; injection H as <- <-; [|split; assumption]. split; [assumption|]. apply Forall_set_nth; [assumption|].
    destruct (conn_nth _ _ _ C) as [N Ty]. rewrite Forall_forall in S. destruct (S e (nth_error_In _ _ N)) as (B & K1 & K2). split; [assumption|]. split; assumption.
  - injection H as <- <-. split; [|assumption]. cbn [a_core]. destruct T as [T1 T2]. unfold reaper. pose proof (reap_loop_ids now (g_ids (a_core a)) 0) as R.
    destruct (reap_loop now (g_ids (a_core a)) 0) as [l d]. cbn [fst] in *. split; cbn [g_n g_ids]; [lia|]. rewrite R. now apply filter_nodup.
  - injection H as <- <-. split; [|assumption]. split; [reflexivity|constructor].
Qed.
Lemma runs_inv : forall c evs a a' tr, Inv c a -> Forall ev_ok evs -> runs c a evs = Run a' tr -> Inv c a'.
Proof.
  intros c. induction evs as [|ev r IH]; intros a a' tr I0 H R; cbn [runs] in R; [injection R as <- <-; assumption|].
  apply Forall_cons_iff in H as [H1 H2]. destruct (step c a ev) as [|a1 os] eqn:E; [discriminate|]. destruct (runs c a1 r) as [|a2 os'] eqn:E2; [discriminate|].
  injection R as <- <-. apply (IH a1 a2 os'); [now apply (step_inv _ _ _ _ _ I0 H1 E)|assumption|assumption].
Qed.
Lemma init_inv : forall c, Inv c agent_init.
Proof.
  intros c. split; [split; [reflexivity|constructor]|]. cbn [agent_init a_socks new_socket first_unused app]. constructor; [|].
  - split; [constructor|]. split; [apply no_bindings|auto].
  - apply Forall_forall. intros x Hx. apply repeat_spec in Hx. subst. apply unused_ok.
Qed.
Lemma reach_inv : forall c a, reachable c a -> Inv c a.
Proof. intros c a (evs & tr & H & R). apply (runs_inv c evs agent_init a tr); [apply init_inv|assumption|assumption]. Qed.
