(** Steps and histories of the agent. *)
From Coq Require Import String.
From Verif Require Import Base Text SshbufModel SshbufSpec SshbufProof WireSpec WireProof MatchModel MatchSpec MatchProof MiscNumModel Dec AuthOptModel AuthOptProof AgentModel AgentSpec AgentProof AgentProof2 AgentProof3 AgentProof4 AgentProof5.
Open Scope Z_scope.

(** ** The reply of a step *)
Lemma sign_noreply : forall c en g e b q r, ~ In (OReply q r) (snd (sign_request c en g e b)).
Proof.
  intros c en g e b q r H. unfold sign_request in H. destruct (get_key c b) as [[k b1]|]; [|destruct H]. destruct (get_str b1) as [[dt b2]|]; [|destruct H].
  destruct (get_int 4 b2) as [[fl b3]|]; [|destruct H]. destruct (lookup_identity k (g_ids g)) as [j|]; [|destruct H].
  destruct (negb (dest_ok c en e j k dt)); [destruct H|]. destruct (i_confirm j && negb (e_ask en)); [destruct H as [H|[]]; discriminate|]. cbv zeta in H.
  assert (A : forall o, In o (if i_confirm j then [OAsk j true] else []) -> o = OAsk j true) by (destruct (i_confirm j); [intros o [K|[]]; congruence|intros o []]).
  destruct (negb (websafe_ok c j k dt)); [apply A in H; discriminate|]. pose proof (do_sign_obs en j k dt fl) as DO. destruct (do_sign en j k dt fl) as [x os]. cbn [snd] in *.
  apply in_app_or in H as [H|H]; [apply A in H|apply DO in H]; discriminate.
Qed.
Lemma dispatch_noreply : forall c en g e t b g' e' r os q x, dispatch c en g e t b = Some (g', e', r, os) -> ~ In (OReply q x) os.
Proof.
  intros c en g e t b g' e' r os q x D H. destruct (dispatch_obs _ _ _ _ _ _ _ _ _ _ _ D H) as [(_ & -> & _)|(_ & _ & p & pr & -> & _)].
  - now apply sign_noreply in H.
  - destruct H as [H|[]]. discriminate.
Qed.
Lemma step_message : forall c a ev a' os o, step c a ev = Run a' os -> In o os -> exists n en, ev = EvMessage n en.
Proof.
  intros c a ev a' os o H Ho. destruct ev as [|n b|n en|n|n k|t|].
  - injection H as <- <-; destruct Ho.
  - cbn [step] in H. destruct (conn a n); [|injection H as <- <-; destruct Ho]. destruct (put b (Some (s_in s))); [|discriminate]. injection H as <- <-; destruct Ho.
  - eauto.
  - cbn [step] in H. destruct (conn a n); injection H as <- <-; destruct Ho.
  - cbn [step] in H. destruct (conn a n); injection H as <- <-; destruct Ho.
  - injection H as <- <-; destruct Ho.
  - injection H as <- <-; destruct Ho.
Qed.
Lemma reply_inv : forall c a n en a' os req r, Inv c a -> step c a (EvMessage n en) = Run a' os -> In (OReply req r) os ->
  exists e rest t b e1 os1 out, conn a n = Some e /\ req = t :: b /\ 0 <= t < 256 /\ is_bytes b /\ zlen b <= 134217723 /\
    dispatch c en (a_core a) (quiet e rest) t b = Some (a_core a', e1, r, os1) /\ os = os1 ++ [OReply req r] /\
    a_socks a' = set_nth n (answered e1 out) (a_socks a).
Proof.
  intros c a n en a' os req r [T S] H Ho. apply message_inv in H as [(-> & _)|H]; [destruct Ho|].
  destruct H as (e & rq & rest & t & b & g & e1 & rp & os1 & out & C & G & Ty & D & P & -> & ->).
  destruct (conn_nth _ _ _ C) as [N _]. rewrite Forall_forall in S. destruct (S e (nth_error_In _ _ N)) as (B & _).
  destruct (get_str_spec _ _ _ B G) as (_ & L & Bq & _). destruct (get_u8_spec _ _ _ Bq Ty) as (-> & Ht & Bb).
  apply in_app_or in Ho as [Ho|[Ho|[]]]; [now apply (dispatch_noreply _ _ _ _ _ _ _ _ _ _ _ _ D) in Ho|].
  assert (req = t :: b /\ r = rp) as [-> ->] by (split; congruence). rewrite zlen_cons in L.
  exists e, rest, t, b, e1, os1, out. splits; auto; lia.
Qed.
Lemma obs_inv : forall c a n en a' os o, Inv c a -> step c a (EvMessage n en) = Run a' os -> In o os -> (forall q x, o <> OReply q x) ->
  exists e rest t b e1 r os1, conn a n = Some e /\ is_bytes b /\ dispatch c en (a_core a) (quiet e rest) t b = Some (a_core a', e1, r, os1) /\ os = os1 ++ [OReply (t :: b) r] /\ In o os1.
Proof.
  intros c a n en a' os o [T S] H Ho No. apply message_inv in H as [(-> & _)|H]; [destruct Ho|].
  destruct H as (e & rq & rest & t & b & g & e1 & rp & os1 & out & C & G & Ty & D & P & -> & ->).
  destruct (conn_nth _ _ _ C) as [N _]. rewrite Forall_forall in S. destruct (S e (nth_error_In _ _ N)) as (B & _).
  destruct (get_str_spec _ _ _ B G) as (_ & L & Bq & _). destruct (get_u8_spec _ _ _ Bq Ty) as (-> & Ht & Bb).
  apply in_app_or in Ho as [Ho|[Ho|[]]]; [|exfalso; now apply (No _ _ (eq_sym Ho))].
  exists e, rest, t, b, e1, rp, os1. auto.
Qed.

(** ** Passphrases *)
Lemma pw_unique : forall pw more x r, zlen pw <= 134217724 -> dec_cstring (enc_string pw ++ more) = ROk (x, r) -> x = pw.
Proof.
  intros pw more x r L H. unfold dec_cstring in H. rewrite dec_string_ok in H by (change (SSHBUF_SIZE_MAX - 4) with 134217724; assumption).
  destruct (nul_ok pw); [|discriminate]. congruence.
Qed.
Lemma pw_short : forall pw more, zlen (enc_string pw ++ more) <= 134217723 -> zlen pw <= 134217724.
Proof. intros pw more H. rewrite zlen_app, zlen_enc in H. pose proof (zlen_nonneg _ more). lia. Qed.
Definition locked_by (c : cfg) (pw salt : list Z) (a : agent) : Prop :=
  g_locked (a_core a) = true /\ g_salt (a_core a) = salt /\ g_hash (a_core a) = c_kdf c pw salt.
Lemma lock_takes : forall c a n en a' os req pw, Inv c a -> step c a (EvMessage n en) = Run a' os -> In (OReply req success) os -> lock_request req pw ->
  locked_by c pw (e_salt en) a' /\ keys a' = keys a /\ g_locked (a_core a) = false /\ pw <> [].
Proof.
  intros c a n en a' os req pw I0 H Ho (more & Er). destruct (reply_inv _ _ _ _ _ _ _ _ I0 H Ho) as (e & rest & t & b & e1 & os1 & out & C & Eb & Ht & Bb & L & D & -> & _).
  assert (b = enc_string pw ++ more) as -> by congruence. assert (t = 22) as -> by congruence. apply pw_short in L. unfold dispatch in D. change (22 =? SSH_AGENTC_UNLOCK) with false in D. cbn [negb] in D. rewrite Bool.andb_true_r in D.
  destruct (g_locked (a_core a)) eqn:Lk; [injection D as _ _ D _; discriminate|]. change (22 =? SSH_AGENTC_LOCK) with true in D. cbv iota in D.
  unfold process_lock_agent in D. destruct (dec_cstring (enc_string pw ++ more)) as [[x r]|] eqn:Dp; [|discriminate]. apply pw_unique in Dp; [|assumption]. subst x.
  rewrite Lk in D. cbn [andb negb] in D. destruct (zlen pw =? 0) eqn:Z0; [injection D as _ _ D _; discriminate|].
  injection D as Dg _ _. unfold locked_by, keys. rewrite <- Dg. cbn. splits; auto. intros ->. discriminate.
Qed.
Ltac calm := cbn [a_core a_socks swept g_locked g_salt g_hash g_ids remove_all_identities]; split; [solve [auto]|split; [reflexivity|intros ? []]].
Lemma locked_step : forall c pw salt a ev a' os, Inv c a -> locked_by c pw salt a -> step c a ev = Run a' os ->
  (forall req' r pw', In (OReply req' r) os -> unlock_request req' pw' -> c_kdf c pw' salt <> c_kdf c pw salt) ->
  locked_by c pw salt a' /\ keys a' = swept [ev] (keys a) /\
  forall o, In o os -> exists req r, o = OReply req r /\ (r = failure \/ (exists b, req = 11 :: b) /\ r = empty_list).
Proof.
  intros c pw salt a ev a' os I0 (L1 & L2 & L3) H U. unfold locked_by, keys. destruct ev as [|n bytes|n en|n|n count|now|].
  - injection H as <- <-. calm.
  - cbn [step] in H. destruct (conn a n) as [e|]; [|injection H as <- <-; calm]. destruct (put bytes _); [|discriminate]. injection H as <- <-. calm.
  - pose proof H as H0. apply message_inv in H as [(-> & [->|[_ ->]])|(e & rq & rest & t & b & g & e1 & rp & os1 & out & C & G & Ty & D & P & -> & ->)]; [calm|calm|].
    cbn [a_core swept]. destruct (dispatch_locked _ _ _ _ _ _ _ _ _ _ L1 D) as (K1 & -> & K).
    destruct (reply_inv c a n en _ _ rq rp I0 H0 (or_introl eq_refl)) as (e' & rest' & t' & b' & e1' & os1' & out' & _ & Eq & Ht & Bb & Lb & _).
    assert (t' = t /\ b' = b) as [-> ->]. { rewrite Eq in Ty. rewrite get_u8_cons in Ty by assumption. split; congruence. }
    destruct K as [(Nt & -> & Er)|(Et & pw' & more & Dp & K)].
    + splits; auto. intros o [<-|[]]. exists rq, rp. split; [reflexivity|]. destruct (t =? 11) eqn:E11; [right|left; exact Er]. split; [|exact Er]. exists b. rewrite Eq. f_equal. lia.
    + assert (Eb : b = enc_string pw' ++ more).
      { unfold dec_cstring in Dp. destruct (dec_string b) as [[v rr]|] eqn:Ds; [|discriminate]. destruct (nul_ok v); [|discriminate].
        assert (Gs : get_str b = Some (v, rr)) by (unfold get_str; now rewrite Ds). destruct (get_str_spec _ _ _ Bb Gs) as (-> & _). congruence. }
      destruct K as [(_ & -> & LS1 & LS2 & LS3)|(K & _)].
      * rewrite LS1, LS2, LS3. splits; auto. intros o [<-|[]]. exists rq, (status false). split; [reflexivity|now left].
      * exfalso. apply (U rq rp pw'); [now left|exists more; rewrite Eq, Et, Eb; reflexivity|]. congruence.
  - cbn [step] in H. destruct (conn a n); injection H as <- <-; calm.
  - cbn [step] in H. destruct (conn a n); injection H as <- <-; calm.
  - injection H as <- <-. cbn [a_core swept]. rewrite reaper_ids. unfold reaper. destruct (reap_loop now (g_ids (a_core a)) 0). calm.
  - injection H as <- <-. calm.
Qed.
Lemma swept_cons : forall ev evs l, swept (ev :: evs) l = swept evs (swept [ev] l).
Proof. intros [| | | | | |] evs l; reflexivity. Qed.
Lemma locked_runs : forall c pw salt evs a a' tr, Inv c a -> Forall ev_ok evs -> locked_by c pw salt a -> runs c a evs = Run a' tr ->
  (forall req' r pw', In (OReply req' r) tr -> unlock_request req' pw' -> c_kdf c pw' salt <> c_kdf c pw salt) ->
  locked_by c pw salt a' /\ keys a' = swept evs (keys a) /\
  forall o, In o tr -> exists req r, o = OReply req r /\ (r = failure \/ (exists b, req = 11 :: b) /\ r = empty_list).
Proof.
  intros c pw salt. induction evs as [|ev evs IH]; intros a a' tr I0 E L R U; cbn [runs] in R; [injection R as <- <-; split; [assumption|]; split; [reflexivity|easy]|].
  apply Forall_cons_iff in E as [E1 E2]. destruct (step c a ev) as [|a1 os] eqn:S; [discriminate|]. destruct (runs c a1 evs) as [|a2 os'] eqn:R2; [discriminate|]. injection R as <- <-.
  destruct (locked_step _ _ _ _ _ _ _ I0 L S) as (L1 & K1 & O1); [intros q r p Hq; apply (U q r p); apply in_or_app; now left|].
  destruct (IH a1 a2 os') as (L2 & K2 & O2); [now apply (step_inv _ _ _ _ _ I0 E1 S)|assumption|assumption|assumption|intros q r p Hq; apply (U q r p); apply in_or_app; now right|].
  split; [assumption|]. split; [rewrite swept_cons, K2, K1; reflexivity|]. intros o Ho. apply in_app_or in Ho as [Ho|Ho]; auto.
Qed.
Lemma unlock_iff : forall c pw salt a n en a' os req r pw', Inv c a -> locked_by c pw salt a -> step c a (EvMessage n en) = Run a' os -> In (OReply req r) os -> unlock_request req pw' ->
  (r = success <-> pw' <> [] /\ c_kdf c pw' salt = c_kdf c pw salt) /\ (r = success -> g_locked (a_core a') = false) /\ keys a' = keys a.
Proof.
  intros c pw salt a n en a' os req r pw' I0 (L1 & L2 & L3) H Ho (more & Er).
  destruct (reply_inv _ _ _ _ _ _ _ _ I0 H Ho) as (e & rest & t & b & e1 & os1 & out & C & Eb & Ht & Bb & L & D & -> & _).
  assert (b = enc_string pw' ++ more) as -> by congruence. assert (t = 23) as -> by congruence. apply pw_short in L. destruct (dispatch_locked _ _ _ _ _ _ _ _ _ _ L1 D) as (K1 & _ & K).
  destruct K as [(K & _)|(_ & x & m & Dp & K)]; [congruence|]. apply pw_unique in Dp; [|assumption]. subst x. rewrite L2, L3 in K.
  destruct K as [(A & -> & _)|(A & B & -> & F)].
  - split; [|split; [intros K; discriminate K|exact K1]]. split; [intros K; discriminate K|]. intros [N Q]. destruct A; contradiction.
  - split; [|auto]. split; auto.
Qed.

(** ** Keys appear only by successful additions *)
Lemma step_ids : forall c a ev a' os i, Inv c a -> step c a ev = Run a' os -> In i (keys a') -> In i (keys a) \/
  exists n en e rest t b, ev = EvMessage n en /\ conn a n = Some e /\ In (OReply (t :: b) success) os /\ is_bytes b /\ origin c en (a_core a) (quiet e rest) t b i.
Proof.
  intros c a ev a' os i I0 H Hi. unfold keys in *. destruct ev as [|n bytes|n en|n|n count|now|].
  - injection H as <- <-. now left.
  - cbn [step] in H. destruct (conn a n) as [e|]; [|injection H as <- <-; now left]. destruct (put bytes _); [|discriminate]. injection H as <- <-. now left.
  - pose proof H as H0. apply message_inv in H as [(-> & [->|[_ ->]])|(e & rq & rest & t & b & g & e1 & rp & os1 & out & C & G & Ty & D & P & -> & ->)]; [now left|now left|].
    destruct (reply_inv c a n en _ _ rq rp I0 H0) as (e' & rest' & t' & b' & e1' & os1' & out' & _ & Eq & Ht & Bb & Lb & _); [apply in_or_app; right; now left|].
    assert (t' = t /\ b' = b) as [-> ->]. { rewrite Eq in Ty. rewrite get_u8_cons in Ty by assumption. split; congruence. }
    cbn [a_core] in Hi. destruct (dispatch_ids _ _ _ _ _ _ _ _ _ _ _ D Hi) as [K|[-> K]]; [now left|]. right. exists n, en, e, rest, t, b. splits; auto. rewrite Eq. apply in_or_app. right. now left.
  - cbn [step] in H. destruct (conn a n); injection H as <- <-; now left.
  - cbn [step] in H. destruct (conn a n); injection H as <- <-; now left.
  - injection H as <- <-. left. cbn [a_core] in Hi. rewrite reaper_ids in Hi. now apply filter_In in Hi.
  - injection H as <- <-. destruct Hi.
Qed.
Lemma origin_type : forall c en g e t b i, origin c en g e t b i -> add_request (t :: b).
Proof. intros c en g e t b i [? ? ? ? ? ? ? H|? ? ? ? ? H]; exists t, b; (split; [reflexivity|tauto]). Qed.
Lemma runs_ids : forall c evs a a' tr i, Inv c a -> Forall ev_ok evs -> runs c a evs = Run a' tr -> (forall req, add_request req -> ~ In (OReply req success) tr) -> In i (keys a') -> In i (keys a).
Proof.
  intros c. induction evs as [|ev evs IH]; intros a a' tr i I0 E R U Hi; cbn [runs] in R; [injection R as <- <-; assumption|].
  apply Forall_cons_iff in E as [E1 E2]. destruct (step c a ev) as [|a1 os] eqn:S; [discriminate|]. destruct (runs c a1 evs) as [|a2 os'] eqn:R2; [discriminate|]. injection R as <- <-.
  apply (IH a1 a2 os' i) in Hi; [|now apply (step_inv _ _ _ _ _ I0 E1 S)|assumption|assumption|intros q Q K; apply (U q Q); apply in_or_app; now right].
  destruct (step_ids _ _ _ _ _ _ I0 S Hi) as [K|(n & en & e & rest & t & b & _ & _ & Ho & _ & O)]; [assumption|]. exfalso. apply (U (t :: b)); [now apply origin_type in O|apply in_or_app; now left].
Qed.
Lemma sign_step : forall c a n en a' os i data, Inv c a -> step c a (EvMessage n en) = Run a' os -> In (OSign i data) os ->
  exists e rest b, conn a n = Some e /\ is_bytes b /\ In (OSign i data) (snd (sign_request c en (a_core a) (quiet e rest) b)) /\
    g_locked (a_core a) = false /\ exists r, os = snd (sign_request c en (a_core a) (quiet e rest) b) ++ [OReply (13 :: b) r].
Proof.
  intros c a n en a' os i data I0 H Ho. destruct (obs_inv _ _ _ _ _ _ _ I0 H Ho) as (e & rest & t & b & e1 & r & os1 & C & B & D & -> & Ho1); [discriminate|].
  destruct (dispatch_obs _ _ _ _ _ _ _ _ _ _ _ D Ho1) as [(Et & E & L)|(_ & _ & p & pr & -> & _)]; [|destruct Ho1 as [K|[]]; discriminate].
  subst os1. exists e, rest, b. splits; auto. exists r. rewrite Et. reflexivity.
Qed.
Lemma runs_sign : forall c evs a a' tr i data, Inv c a -> Forall ev_ok evs -> runs c a evs = Run a' tr -> (forall req, add_request req -> ~ In (OReply req success) tr) -> In (OSign i data) tr -> In i (keys a).
Proof.
  intros c. induction evs as [|ev evs IH]; intros a a' tr i data I0 E R U Hi; cbn [runs] in R; [injection R as <- <-; destruct Hi|].
  apply Forall_cons_iff in E as [E1 E2]. destruct (step c a ev) as [|a1 os] eqn:S; [discriminate|]. destruct (runs c a1 evs) as [|a2 os'] eqn:R2; [discriminate|]. injection R as <- <-.
  apply in_app_or in Hi as [Hi|Hi].
  - destruct (step_message _ _ _ _ _ _ S Hi) as (n & en & ->). destruct (sign_step _ _ _ _ _ _ _ _ I0 S Hi) as (e & rest & b & _ & B & K & _). destruct (sign_obs _ _ _ _ _ _ _ B K) as [(K1 & _) _]. exact K1.
  - apply (IH a1 a2 os' i data) in Hi; [|now apply (step_inv _ _ _ _ _ I0 E1 S)|assumption|assumption|intros q Q K; apply (U q Q); apply in_or_app; now right].
    destruct (step_ids _ _ _ _ _ _ I0 S Hi) as [K|(n & en & e & rest & t & b & _ & _ & Ho & _ & O)]; [assumption|]. exfalso. apply (U (t :: b)); [now apply origin_type in O|apply in_or_app; now left].
Qed.
