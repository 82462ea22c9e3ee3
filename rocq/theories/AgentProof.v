(** Lemmas about the agent: the shape of one step, parsing, and the constraint walk. *)
From Coq Require Import String.
From Verif Require Import Base Text SshbufModel SshbufSpec SshbufProof WireSpec WireProof MatchModel MatchSpec MatchProof MiscNumModel Dec AuthOptModel AgentModel AgentSpec.

(** ** One byte in front *)
Lemma be1 : forall v, 0 <= v < 256 -> be_enc 1 v = [v].
Proof. intros v H. cbn. f_equal. rewrite Z.mod_small; [reflexivity|lia]. Qed.
Lemma get_u8_spec : forall l v r, is_bytes l -> get_int 1 l = Some (v, r) -> l = v :: r /\ 0 <= v < 256 /\ is_bytes r.
Proof.
  intros l v r Hb H. destruct (get_int_spec _ _ _ _ Hb H) as (-> & B & R). change (256 ^ Z.of_nat 1) with 256 in B.
  split; [|split; assumption]. rewrite (be1 v) by lia. reflexivity.
Qed.
Lemma get_u8_cons : forall v r, 0 <= v < 256 -> get_int 1 (v :: r) = Some (v, r).
Proof.
  intros v r H. pose proof (get_int_enc 1 v r) as E. change (256 ^ Z.of_nat 1) with 256 in E.
  rewrite be1 in E by lia. apply E. assumption.
Qed.
Lemma get_cstr_text : forall l v r, is_bytes l -> get_cstr l = Some (v, r) -> exists raw, l = enc_string raw ++ r /\ text raw v /\ is_bytes r.
Proof.
  intros l v r Hb H. pose proof (get_cstr_no_nul _ _ _ H) as N. destruct (get_cstr_str _ _ _ H) as (raw & E & _ & D).
  destruct (get_str_spec _ _ _ Hb E) as (-> & _ & _ & R). exists raw. split; [reflexivity|]. split; [split; assumption|assumption].
Qed.
Lemma get_key_wire : forall c l k r, is_bytes l -> get_key c l = Some (k, r) -> exists b, l = b ++ r /\ wire_key c b k /\ is_bytes r.
Proof.
  intros c l k r Hb H. unfold get_key in H. destruct (get_str l) as [[b r']|] eqn:E; [|discriminate].
  destruct (c_key c b) as [k'|] eqn:K; [|discriminate]. injection H as -> ->. destruct (get_str_spec _ _ _ Hb E) as (-> & _ & _ & R).
  exists (enc_string b). split; [reflexivity|]. split; [|assumption]. exists b. split; [reflexivity|assumption].
Qed.

(** ** The shape of a step *)
Definition quiet (e : sock) (rest : list Z) : sock := mkS (s_type e) rest (s_out e) (s_ids e) (s_attempted e).
Definition answered (e : sock) (out : list Z) : sock := mkS (s_type e) (s_in e) out (s_ids e) (s_attempted e).
Definition served (c : cfg) (en : env) (a : agent) (n : nat) (a' : agent) (os : list obs) : Prop :=
  exists e req rest type body g e1 reply os1 out,
    conn a n = Some e /\ get_str (s_in e) = Some (req, rest) /\ get_int 1 req = Some (type, body) /\
    dispatch c en (a_core a) (quiet e rest) type body = Some (g, e1, reply, os1) /\
    put_str reply (Some (s_out e1)) = Some out /\
    a' = mkAg g (set_nth n (answered e1 out) (a_socks a)) /\ os = os1 ++ [OReply req reply].
Lemma conn_nth : forall a n e, conn a n = Some e -> nth_error (a_socks a) n = Some e /\ s_type e = AUTH_CONNECTION.
Proof.
  intros a n e H. unfold conn in H. destruct (nth_error (a_socks a) n) as [e'|]; [|discriminate].
  destruct (s_type e' =? AUTH_CONNECTION) eqn:E; [|discriminate]. injection H as <-. split; [reflexivity|lia].
Qed.
Lemma message_inv : forall c en a n a' os, step c a (EvMessage n en) = Run a' os ->
  (os = [] /\ (a' = a \/ (exists e, conn a n = Some e) /\ a' = mkAg (a_core a) (close_socket n (a_socks a)))) \/ served c en a n a' os.
Proof.
  intros c en a n a' os H. cbn [step] in H. destruct (conn a n) as [e|] eqn:C; [|injection H as <- <-; left; auto].
  destruct (conn_nth _ _ _ C) as [N _]. unfold process_message in H. rewrite N in H. cbv zeta in H.
  destruct (zlen (s_in e) <? 5); [injection H as <- <-; left; auto|].
  destruct (AGENT_MAX_LEN <? _); [injection H as <- <-; left; eauto|].
  destruct (zlen (s_in e) <? _); [injection H as <- <-; left; auto|].
  destruct (get_str (s_in e)) as [[req rest]|] eqn:G; [|injection H as <- <-; left; eauto].
  destruct (get_int 1 req) as [[type body]|] eqn:T; [|injection H as <- <-; left; eauto].
  destruct (dispatch _ _ _ _ _ _) as [[[[g e1] reply] os1]|] eqn:D; [|discriminate].
  destruct (put_str reply (Some (s_out e1))) as [out|] eqn:P; [|discriminate]. injection H as <- <-.
  right. exists e, req, rest, type, body, g, e1, reply, os1, out. auto 10.
Qed.

(** Which handler ran *)
Ltac dcase D :=
  unfold dispatch in D;
  repeat (match type of D with
  | (if ?b then _ else _) = _ => let E := fresh "T" in destruct b eqn:E
  end).

(** ** Handlers other than those of extensions leave the connection as it was, and
    locked or not is changed by lock and unlock only *)
Lemma e_request : forall en g e b g' e' r os, process_request_identities en g e b = Some (g', e', r, os) -> g' = g /\ e' = e /\ os = [].
Proof.
  intros en g e b g' e' r os H. unfold process_request_identities in H. destruct (list_keys en e (g_ids g) 0 []) as [n ks].
  destruct (put ks _); [|discriminate]. injection H as <- <- <- <-. auto.
Qed.
Lemma e_sign2 : forall c en g e b g' e' r os, process_sign_request2 c en g e b = Some (g', e', r, os) -> g' = g /\ e' = e /\ os = snd (sign_request c en g e b).
Proof.
  intros c en g e b g' e' r os H. unfold process_sign_request2 in H. destruct (sign_request c en g e b) as [[s|] o]; [|injection H as <- <- <- <-; auto].
  destruct (put_str s _); [|discriminate]. injection H as <- <- <- <-. auto.
Qed.
Definition lock_same (g g' : core) : Prop := g_locked g' = g_locked g /\ g_hash g' = g_hash g /\ g_salt g' = g_salt g.
Lemma e_remove : forall c en g e b g' e' r os, process_remove_identity c en g e b = Some (g', e', r, os) -> lock_same g g' /\ e' = e /\ os = [].
Proof.
  intros c en g e b g' e' r os H. unfold process_remove_identity in H. destruct (get_key c b) as [[k x]|]; [|injection H as <- <- <- <-; unfold lock_same; auto].
  destruct (lookup_identity k (g_ids g)); [|injection H as <- <- <- <-; unfold lock_same; auto].
  destruct (negb _); [injection H as <- <- <- <-; unfold lock_same; auto|]. destruct (g_n g <? 1); [discriminate|]. injection H as <- <- <- <-; unfold lock_same; auto.
Qed.
Lemma e_removeall : forall g e b g' e' r os, process_remove_all_identities g e b = Some (g', e', r, os) -> g' = remove_all_identities g /\ e' = e /\ os = [].
Proof. intros g e b g' e' r os H. injection H as <- <- <- <-. auto. Qed.
(** What adding an identity does *)
Lemma add_inv : forall c en g e b g', add_identity c en g e b = Good g' ->
  exists k cm q sk b1 b2, c_priv c b = Some (k, b1) /\ get_cstr b1 = Some (cm, b2) /\ parse_key_constraints c en (length b2) (Some k) b2 no_cons = Good q /\
    check_sk c en e k (q_sk q) = Some sk /\ e_shield en = true /\ lock_same g g' /\
    let new p := mkI k cm p (final_death c en q) (q_confirm q) sk (q_dcs q) in
    ((lookup_identity k (g_ids g) = None /\ g_ids g' = g_ids g ++ [new None] /\ g_n g' = g_n g + 1) \/
     (exists i, lookup_identity k (g_ids g) = Some i /\ identity_permitted en i e None = true /\
                g_ids g' = update_identity k (fun i => new (i_provider i)) (g_ids g) /\ g_n g' = g_n g)).
Proof.
  intros c en g e b g' H. unfold add_identity in H. destruct (c_priv c b) as [[k b1]|] eqn:E1; [|discriminate]. cbn [bind need] in H.
  destruct (get_cstr b1) as [[cm b2]|] eqn:E2; [|discriminate]. cbn [bind need] in H.
  destruct (parse_key_constraints c en (length b2) (Some k) b2 no_cons) as [q| |] eqn:E3; [|discriminate|discriminate]. cbn [bind] in H.
  destruct (check_sk c en e k (q_sk q)) as [sk|] eqn:E4; [|discriminate]. cbn [bind need] in H.
  destruct (e_shield en) eqn:E5; [|discriminate]. cbn [negb] in H. cbv zeta in H.
  exists k, cm, q, sk, b1, b2. destruct (lookup_identity k (g_ids g)) as [i|] eqn:E6.
  - destruct (identity_permitted en i e None) eqn:E7; [|discriminate]. cbn [negb] in H. injection H as <-.
    cbv zeta. unfold lock_same. cbn [g_ids g_n g_locked g_hash g_salt]. splits; auto. right. exists i. auto.
  - injection H as <-. cbv zeta. unfold lock_same. cbn [g_ids g_n g_locked g_hash g_salt]. splits; auto.
Qed.
Lemma e_add : forall c en g e b g' e' r os, process_add_identity c en g e b = Some (g', e', r, os) ->
  lock_same g g' /\ e' = e /\ os = [] /\ ((g' = g /\ r = status false) \/ (add_identity c en g e b = Good g' /\ r = status true)).
Proof.
  intros c en g e b g' e' r os H. unfold process_add_identity in H. destruct (add_identity c en g e b) as [g1| |] eqn:E; [| |discriminate].
  - injection H as <- <- <- <-. destruct (add_inv _ _ _ _ _ _ E) as (k & cm & q & sk & b1 & b2 & _ & _ & _ & _ & _ & L & _). auto 10.
  - injection H as <- <- <- <-. unfold lock_same. auto 10.
Qed.
Lemma p11_same : forall c en k cm p q g, lock_same g (add_p11_identity c en k cm p q g).
Proof. intros. unfold add_p11_identity, lock_same. destruct (lookup_identity k (g_ids g)); auto. Qed.
Lemma lock_trans : forall a b d, lock_same a b -> lock_same b d -> lock_same a d.
Proof. unfold lock_same. intuition congruence. Qed.
Lemma p11_certs_same : forall c en k cm p q ct g s, lock_same g (fst (add_p11_certs c en k ct cm p q g s)).
Proof.
  intros c en k cm p q. induction ct as [|x r IH]; intros g s; cbn [add_p11_certs]; [unfold lock_same; auto|].
  destruct (_ || _); [apply IH|]. destruct (e_mkcert en k x) as [k'|]; [|apply IH].
  eapply lock_trans; [apply p11_same|apply IH].
Qed.
Lemma p11_keys_same : forall c en p q l g s, lock_same g (fst (add_p11_keys c en l p q g s)).
Proof.
  intros c en p q. induction l as [|[k lab] r IH]; intros g s; cbn [add_p11_keys]; [unfold lock_same; auto|].
  cbv zeta. pose proof (p11_certs_same c en k (match lab with Some s0 => if is_nil s0 then p else s0 | None => p end) p q (q_certs q) g s) as L.
  destruct (add_p11_certs c en k (q_certs q) _ p q g s) as [g1 s1]. cbn [fst] in L.
  destruct (_ && _); [|eapply lock_trans; [exact L|apply IH]].
  eapply lock_trans; [exact L|]. eapply lock_trans; [apply p11_same|apply IH].
Qed.
Lemma card_inv : forall c en g e b g' ok os, add_smartcard c en g e b = Good (g', ok, os) ->
  exists prov pin b1 b2 q p, get_cstr b = Some (prov, b1) /\ get_cstr b1 = Some (pin, b2) /\ parse_key_constraints c en (length b2) None b2 no_cons = Good q /\
    (socket_is_remote e = true -> c_remote_ok c = true) /\ e_realpath en prov = Some p /\ provider_allowed c p = true /\
    (g', ok) = add_p11_keys c en (e_p11 en p pin) p q g false /\ os = [OLoad p].
Proof.
  intros c en g e b g' ok os H. unfold add_smartcard in H. destruct (get_cstr b) as [[prov b1]|] eqn:E1; [|discriminate]. cbn [bind need] in H.
  destruct (get_cstr b1) as [[pin b2]|] eqn:E2; [|discriminate]. cbn [bind need] in H.
  destruct (parse_key_constraints c en (length b2) None b2 no_cons) as [q| |] eqn:E3; [|discriminate|discriminate]. cbn [bind] in H.
  destruct (socket_is_remote e && negb (c_remote_ok c)) eqn:E4; [discriminate|].
  destruct (e_realpath en prov) as [p|] eqn:E5; [|discriminate]. cbn [bind need] in H.
  destruct (provider_allowed c p) eqn:E6; [|discriminate]. cbn [negb] in H.
  destruct (add_p11_keys c en (e_p11 en p pin) p q g false) as [g1 ok1] eqn:E7. injection H as <- <- <-.
  exists prov, pin, b1, b2, q, p. splits; auto. intros R. rewrite R in E4. destruct (c_remote_ok c); [reflexivity|discriminate].
Qed.
Lemma e_card : forall c en g e b g' e' r os, process_add_smartcard_key c en g e b = Some (g', e', r, os) ->
  lock_same g g' /\ e' = e /\ ((g' = g /\ os = [] /\ r = status false) \/ exists ok, add_smartcard c en g e b = Good (g', ok, os) /\ r = status ok).
Proof.
  intros c en g e b g' e' r os H. unfold process_add_smartcard_key in H. destruct (add_smartcard c en g e b) as [[[g1 ok] o]| |] eqn:E; [| |discriminate].
  - injection H as <- <- <- <-. destruct (card_inv _ _ _ _ _ _ _ _ E) as (prov & pin & b1 & b2 & q & p & _ & _ & _ & _ & _ & _ & K & _).
    splits; eauto. pose proof (p11_keys_same c en p q (e_p11 en p pin) g false) as L. rewrite <- K in L. exact L.
  - injection H as <- <- <- <-. unfold lock_same. auto 10.
Qed.
Lemma e_uncard : forall en g e b g' e' r os, process_remove_smartcard_key en g e b = Some (g', e', r, os) ->
  lock_same g g' /\ e' = e /\ os = [] /\ (g' = g \/ exists p, g_ids g' = filter (fun i => negb (from_provider p i)) (g_ids g) /\ g_n g' = g_n g - (zlen (g_ids g) - zlen (g_ids g'))).
Proof.
  intros en g e b g' e' r os H. unfold process_remove_smartcard_key in H.
  destruct (get_cstr b) as [[prov b1]|]; [|injection H as <- <- <- <-; unfold lock_same; auto 10].
  destruct (get_cstr b1) as [[x y]|]; [|injection H as <- <- <- <-; unfold lock_same; auto 10].
  destruct (e_realpath en prov) as [p|]; [|injection H as <- <- <- <-; unfold lock_same; auto 10].
  injection H as <- <- <- <-. unfold lock_same. cbn [g_ids g_n g_locked g_hash g_salt]. splits; auto. right. exists p. auto.
Qed.
Lemma e_ext : forall c g e b g' e' r os, process_extension c g e b = Some (g', e', r, os) ->
  g' = g /\ os = [] /\ ((e' = e /\ r = status false) \/ exists name b1, get_cstr b = Some (name, b1) /\ name = bs "session-bind@openssh.com" /\ process_ext_session_bind c e b1 = (e', beqb r success) /\ r = status (beqb r success)).
Proof.
  intros c g e b g' e' r os H. unfold process_extension in H. destruct (get_cstr b) as [[name b1]|]; [|injection H as <- <- <- <-; auto 10].
  destruct (beqb name (bs "session-bind@openssh.com")) eqn:E; [|injection H as <- <- <- <-; auto 10].
  destruct (process_ext_session_bind c e b1) as [e1 ok] eqn:B. injection H as <- <- <- <-. apply beqb_eq in E.
  splits; auto. right. exists name, b1. destruct ok; auto.
Qed.
