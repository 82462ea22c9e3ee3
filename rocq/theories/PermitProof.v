From Coq Require Import String.
From Verif Require Import Base Text MatchModel MatchSpec MatchProof MiscNumModel PermitModel PermitSpec.

(** ** Texts of rules *)
Lemma span_spec : forall stop s a b, span stop s = (a, b) ->
  s = a ++ b /\ (forall x, In x a -> stop x = false) /\ (match b with [] => True | d :: _ => stop d = true end).
Proof.
  induction s as [|c r IH]; intros a b E; cbn [span] in E; [injection E as <- <-; repeat split; intros ? []|].
  destruct (stop c) eqn:Es; [injection E as <- <-; repeat split; auto; intros ? []|].
  destruct (span stop r) as [a1 b1] eqn:E1. injection E as <- <-. destruct (IH a1 b1 eq_refl) as (-> & H2 & H3). repeat split; auto.
  intros x [<-|H]; auto.
Qed.
Lemma span_app : forall stop a b, (forall x, In x a -> stop x = false) -> (match b with [] => True | d :: _ => stop d = true end) -> span stop (a ++ b) = (a, b).
Proof.
  induction a as [|c r IH]; intros b Ha Hb; cbn [app span]; [destruct b; cbn; [reflexivity|now rewrite Hb]|].
  rewrite (Ha c) by now left. rewrite IH; auto. intros x Hx. apply Ha. now right.
Qed.
Lemma is_delim_iff : forall d, is_delim d = true <-> d = 58 \/ d = 47.
Proof. intros d. unfold is_delim. lia. Qed.
Lemma hpdelim2_some : forall t old rest d, hpdelim2 t = Some (old, Some rest, d) <->
  (exists s, d = Some s /\ (s = 58 \/ s = 47) /\ t = old ++ s :: rest) /\
  ((hd 0 old <> 91 /\ ~ In 58 old /\ ~ In 47 old) \/ exists h, old = 91 :: h ++ [93] /\ ~ In 93 h).
Proof.
  intros t old rest d. unfold hpdelim2. split.
  - destruct t as [|c r]; [discriminate|]. destruct (c =? 91) eqn:Ec.
    + destruct (span (Z.eqb 93) (c :: r)) as [a [|x b]] eqn:Es; [discriminate|]. destruct (span_spec _ _ _ _ Es) as (H1 & H2 & H3).
      destruct b as [|y b]; [discriminate|]. destruct (is_delim y) eqn:Ey; [|discriminate]. intros E. injection E as <- <- <-.
      apply is_delim_iff in Ey. split; [exists y; rewrite <- app_assoc; auto|]. right. assert (x = 93) by lia. subst x.
      destruct a as [|a0 a]; cbn in H1; [injection H1; intros; lia|]. injection H1 as <- ->. exists a. split; [now replace c with 91 by lia|].
      intros Hi. specialize (H2 93 (or_intror Hi)). lia.
    + destruct (span is_delim (c :: r)) as [a b] eqn:Es. destruct (span_spec _ _ _ _ Es) as (H1 & H2 & H3).
      destruct b as [|y b]; [discriminate|]. rewrite H3. intros E. injection E as <- <- <-. apply is_delim_iff in H3. split; [exists y; auto|]. left.
      splits.
      * destruct a; cbn; [lia|]. cbn in H1. injection H1 as <- _. lia.
      * intros Hi. specialize (H2 _ Hi). discriminate.
      * intros Hi. specialize (H2 _ Hi). discriminate.
  - intros ((s & -> & Hs & ->) & H). assert (Hd : is_delim s = true) by now apply is_delim_iff. destruct H as [(H1 & H2 & H3)|(h & -> & Hh)].
    + assert (E : span is_delim (old ++ s :: rest) = (old, s :: rest)).
      { apply span_app; [|exact Hd]. intros x Hx. destruct (is_delim x) eqn:E; [|reflexivity]. apply is_delim_iff in E as [-> | ->]; contradiction. }
      destruct old as [|c old]; cbn [app] in *.
      * destruct (s =? 91) eqn:E1; [lia|]. rewrite E, Hd. reflexivity.
      * cbn [hd] in H1. destruct (c =? 91) eqn:E1; [lia|]. rewrite E, Hd. reflexivity.
    + cbn [app]. rewrite Z.eqb_refl. rewrite <- app_assoc. change (91 :: h ++ [93] ++ s :: rest) with ((91 :: h) ++ 93 :: s :: rest).
      rewrite span_app; [|intros x [<-|Hx]; [reflexivity|]; destruct (93 =? x) eqn:E; [assert (x = 93) by lia; subst; contradiction|reflexivity]|reflexivity].
      rewrite Hd. cbn [app]. reflexivity.
Qed.
Lemma clean_plain : forall h, hd 0 h <> 91 -> cleanhostname h = h.
Proof. intros [|c r] H; [reflexivity|]. cbn [hd] in H. cbn [cleanhostname]. destruct (c =? 91) eqn:E; [lia|]. reflexivity. Qed.
Lemma last_snoc : forall (l : list Z) x d, last (l ++ [x]) d = x.
Proof. induction l as [|a l IH]; intros x d; [reflexivity|]. cbn [app last]. rewrite IH. destruct (l ++ [x]) eqn:E; [destruct l; discriminate|reflexivity]. Qed.
Lemma clean_bracket : forall h, cleanhostname (91 :: h ++ [93]) = h.
Proof.
  intros h. cbn [cleanhostname]. change (91 :: h ++ [93]) with ((91 :: h) ++ [93]). rewrite last_snoc. cbn [Z.eqb andb]. apply removelast_last.
Qed.
Lemma permitopen_port_ok : forall serv t p, (permitopen_port serv t = p /\ 0 <= p) <-> port_text serv t p.
Proof.
  intros serv t p. unfold permitopen_port, port_text, FWD_PERMIT_ANY_PORT. destruct (beqb t (bs "*")) eqn:E.
  - apply beqb_eq in E. split; [intros [<- _]; left; auto|intros [[_ ->]|[H _]]; [split; [reflexivity|lia]|contradiction]].
  - assert (H : t <> bs "*") by (intros ->; vm_compute in E; discriminate). destruct (0 <? a2port serv t) eqn:Ep.
    + split; [intros [<- _]; right; splits; auto; lia|intros [[? _]|(_ & ? & <-)]; [contradiction|split; [reflexivity|lia]]].
    + split; [lia|intros [[? _]|(_ & ? & <-)]; [contradiction|lia]].
Qed.
Definition seps (two : bool) : list Z := if two then COLON_SLASH else COLON.
Lemma parse_rule_denotes : forall serv two t h p, parse_rule serv two t = Some (h, p) <-> denotes serv (seps two) t h p.
Proof.
  intros serv two t h p. unfold parse_rule.
  assert (D : (if two then match hpdelim2 t with Some (h, r, _) => Some (h, r) | None => None end else hpdelim t) =
              match hpdelim2 t with Some (h, r, d) => if negb two && match d with Some d => d =? 47 | None => false end then None else Some (h, r) | None => None end).
  { destruct two; [destruct (hpdelim2 t) as [[[? ?] ?]|]; reflexivity|]. unfold hpdelim. destruct (hpdelim2 t) as [[[? ?] [d|]]|]; try reflexivity. }
  rewrite D. clear D. unfold denotes. split.
  - destruct (hpdelim2 t) as [[[old rest] d]|] eqn:E; [|discriminate]. destruct (negb two && _) eqn:En; [discriminate|]. destruct rest as [rest|]; [|discriminate].
    destruct (permitopen_port serv rest <? 0) eqn:Ep; [discriminate|]. intros E2. injection E2 as <- <-.
    apply hpdelim2_some in E as ((s & -> & Hs & ->) & H). exists s, rest.
    assert (Hin : In s (seps two)). { destruct two; cbn in En |- *; [destruct Hs; auto|]. destruct Hs as [-> | ->]; [auto|discriminate]. }
    split; [exact Hin|]. split; [apply permitopen_port_ok; split; [reflexivity|lia]|]. destruct H as [(H1 & H2 & H3)|(h & -> & Hh)].
    + left. rewrite clean_plain by exact H1. auto.
    + right. rewrite clean_bracket. split; [|exact Hh]. cbn [app]. now rewrite <- app_assoc.
  - intros (s & pt & Hin & Hp & H). apply permitopen_port_ok in Hp as [Hp Hn].
    assert (Hs : s = 58 \/ s = 47 /\ two = true) by (destruct two; cbn in Hin; intuition).
    destruct H as [(-> & H1 & H2 & H3)|(-> & Hh)].
    + assert (E : hpdelim2 (h ++ s :: pt) = Some (h, Some pt, Some s)) by (apply hpdelim2_some; split; [exists s; split; [reflexivity|split; [tauto|reflexivity]]|left; auto]).
      rewrite E. assert (En : negb two && (s =? 47) = false) by (destruct Hs as [-> | [-> ->]]; [destruct two; reflexivity|reflexivity]). rewrite En, Hp.
      destruct (p <? 0) eqn:Ep; [lia|]. now rewrite clean_plain.
    + assert (E : hpdelim2 (91 :: h ++ 93 :: s :: pt) = Some (91 :: h ++ [93], Some pt, Some s)).
      { apply hpdelim2_some. split; [exists s; split; [reflexivity|split; [tauto|cbn [app]; now rewrite <- app_assoc]]|right; exists h; auto]. }
      rewrite E. assert (En : negb two && (s =? 47) = false) by (destruct Hs as [-> | [-> ->]]; [destruct two; reflexivity|reflexivity]). rewrite En, Hp.
      destruct (p <? 0) eqn:Ep; [lia|]. now rewrite clean_bracket.
Qed.

(** ** Matching *)
Lemma open_match_local : forall h q host port, open_match (mkQ (Some h) q None None 0 None) host port = true <-> open_ok host port h q.
Proof.
  intros h q host port. unfold open_match, open_ok, FWD_PERMIT_ANY_PORT, FWD_PERMIT_ANY_HOST. cbn [q_host q_port].
  destruct (q =? 0) eqn:E1; destruct (q =? port) eqn:E2; destruct (beqb h (bs "*")) eqn:E3; destruct (beqb h host) eqn:E4; cbn [negb andb];
  try (apply beqb_eq in E3); try (apply beqb_eq in E4);
  (split; [intros HT; first [discriminate HT|split; [auto|lia]]|intros [Hh Hq]; try reflexivity; exfalso]).
  all: try (destruct Hq; lia).
  all: destruct Hh as [Hh|Hh]; apply (proj2 (beqb_eq _ _)) in Hh; congruence.
Qed.
Lemma open_match_cleared : forall host port, open_match cleared host port = false.
Proof. reflexivity. Qed.
Lemma remote_match : forall h q host port, remote_open_match (mkQ None 0 (Some h) None q None) (mkFwd (Some host) port None None 0 None) = true <-> listen_ok host port h q.
Proof.
  intros h q host port. unfold remote_open_match, listen_ok, FWD_PERMIT_ANY_PORT. cbn [q_lhost q_lport w_lpath w_lhost w_lport].
  rewrite <- match_pattern_glob. destruct (q =? 0) eqn:E1; destruct (q =? port) eqn:E2; cbn [negb andb]; (split; [intros H; split; auto; lia|intros [H1 H2]; auto]); lia.
Qed.
Lemma existsb_iff : forall A (f : A -> bool) l, existsb f l = true <-> exists x, In x l /\ f x = true.
Proof. intros. apply existsb_exists. Qed.
Lemma permits_iff : forall s m, permits s m = true <->
  (s_all s = true \/ exists q, In q (s_user s) /\ m q = true) /\ (s_admin s = [] \/ exists q, In q (s_admin s) /\ m q = true).
Proof.
  intros s m. unfold permits. rewrite andb_true_iff, !orb_true_iff, !existsb_exists. destruct (s_admin s); cbn [is_nil]; intuition discriminate.
Qed.

(** ** Histories *)
Definition rule_perm (w : where_) (h : list Z) (p : Z) : perm :=
  match w with Local => mkQ (Some h) p None None 0 None | Remote => mkQ None 0 (Some h) None p None end.
Lemma get_put : forall p w s, permission_set_get (put_set p w s) w = s.
Proof. intros p [] s; reflexivity. Qed.
Lemma get_put_other : forall p w w' s, w <> w' -> permission_set_get (put_set p w s) w' = permission_set_get p w'.
Proof. intros p [] [] s H; try reflexivity; congruence. Qed.
Lemma where_dec : forall a b : where_, {a = b} + {a <> b}.
Proof. decide equality. Qed.

Definition uset (w : where_) (hist : list rop) : pset := permission_set_get (rexec hist) w.
Lemma rexec_snoc : forall h x, rexec (h ++ [x]) = rexec1 (rexec h) x.
Proof. intros. unfold rexec. now rewrite fold_left_app. Qed.
Lemma on_other : forall p x w, (match x with RAll v | RAdd _ v _ _ | RDisable v | RClear _ v => v end) <> w -> permission_set_get (rexec1 p x) w = permission_set_get p w.
Proof.
  intros p x w H. destruct x as [v|o v h q|v|o v]; cbn [rexec1]; unfold channel_permit_all, channel_add_permission, channel_disable_admin, channel_clear_permission, permission_set_add.
  - destruct (is_nil _); [now rewrite get_put_other|reflexivity].
  - now rewrite !get_put_other by exact H.
  - now rewrite !get_put_other by exact H.
  - now rewrite get_put_other.
Qed.
Lemma snoc_split : forall A (h : list A) (x : A) a y b, h ++ [x] = a ++ y :: b -> (b = [] /\ y = x /\ a = h) \/ exists b', b = b' ++ [x] /\ h = a ++ y :: b'.
Proof.
  intros A h x a y b E. destruct b as [|z b0] using rev_ind.
  - apply app_inj_tail in E as [-> ->]. left. auto.
  - clear IHb0. right. exists b0. change (h ++ [x] = a ++ (y :: b0) ++ [z]) in E. rewrite app_assoc in E. apply app_inj_tail in E as [-> ->]. auto.
Qed.
Lemma in_force_snoc : forall o w hist x h p, in_force o w (hist ++ [x]) h p <-> (x = RAdd o w h p \/ (in_force o w hist h p /\ ~ resets o w x)).
Proof.
  intros o w hist x h p. unfold in_force. split.
  - intros (a & b & E & H). apply snoc_split in E as [(-> & <- & _)|(b' & -> & ->)]; [now left|]. right. split.
    + exists a, b'. split; [reflexivity|]. intros y Hy. apply H. apply in_or_app. now left.
    + apply H. apply in_or_app. right. now left.
  - intros [->|[(a & b & -> & H) N]]; [exists hist, []; split; [reflexivity|intros ? []]|]. exists a, (b ++ [x]). split; [now rewrite <- app_assoc|].
    intros y Hy. apply in_app_or in Hy as [Hy|[<-|[]]]; auto.
Qed.
Lemma restricted_snoc : forall w hist x, restricted w (hist ++ [x]) <->
  ((x = RDisable w \/ exists h p, x = RAdd Admin w h p) \/ (restricted w hist /\ x <> RClear Admin w)).
Proof.
  intros w hist x. unfold restricted. split.
  - intros (a & y & b & E & H & N). apply snoc_split in E as [(-> & <- & _)|(b' & -> & ->)]; [now left|]. right. split.
    + exists a, y, b'. splits; auto. intros Hi. apply N, in_or_app. now left.
    + intros ->. apply N, in_or_app. right. now left.
  - intros [H|[(a & y & b & -> & H & N) Nx]]; [exists hist, x, []; splits; auto|]. exists a, y, (b ++ [x]). split; [now rewrite <- app_assoc|]. split; [exact H|].
    intros Hi. apply in_app_or in Hi as [Hi|[Hi|[]]]; auto.
Qed.
Lemma opened_snoc : forall w hist x, opened_up w (hist ++ [x]) <->
  ((x = RAll w /\ forall h p, ~ in_force User w hist h p) \/ (opened_up w hist /\ forall o h p, x <> RAdd o w h p)).
Proof.
  intros w hist x. unfold opened_up. split.
  - intros (a & b & E & H & N). apply snoc_split in E as [(-> & <- & ->)|(b' & -> & ->)]; [now left|]. right. split.
    + exists a, b'. splits; auto. intros o h p Hi. apply (N o h p), in_or_app. now left.
    + intros o h p ->. apply (N o h p), in_or_app. right. now left.
  - intros [[-> H]|[(a & b & -> & H & N) Nx]]; [exists hist, []; splits; auto|]. exists a, (b ++ [x]). split; [now rewrite <- app_assoc|]. split; [exact H|].
    intros o h p Hi. apply in_app_or in Hi as [Hi|[Hi|[]]]; [now apply (N o h p)|now apply (Nx o h p)].
Qed.

Lemma rule_perm_inj : forall w h p h' p', rule_perm w h p = rule_perm w h' p' -> h = h' /\ p = p'.
Proof. intros [] h p h' p' E; injection E; auto. Qed.
Definition target_of (x : rop) : where_ := match x with RAll v | RAdd _ v _ _ | RDisable v | RClear _ v => v end.

(** The stored lists are what the history says. *)
Definition ok_state (w : where_) (hist : list rop) : Prop :=
  let s := uset w hist in
  (forall q, In q (s_user s) <-> exists h p, q = rule_perm w h p /\ in_force User w hist h p) /\
  (forall q, q <> cleared -> (In q (s_admin s) <-> exists h p, q = rule_perm w h p /\ in_force Admin w hist h p)) /\
  (s_admin s = [] <-> ~ restricted w hist) /\
  (s_all s = true <-> opened_up w hist).
Lemma ok_state_all : forall w hist, ok_state w hist.
Proof.
  intros w hist. induction hist as [|x hist IH] using rev_ind.
  - unfold ok_state, uset, rexec. cbn [fold_left]. destruct w; cbn; splits; try (split; intros H); try discriminate; try contradiction; auto.
    all: try (destruct H as (? & ? & _ & a & b & E & _); destruct a; discriminate).
    all: try (intros H0; destruct H0 as (a & y & b & E & _); destruct a; discriminate).
    all: try (destruct H as (a & b & E & _); destruct a; discriminate).
    all: intros q Hq; split; [intros []|intros (? & ? & _ & a & b & E & _); destruct a; discriminate].
  - destruct IH as (I1 & I2 & I3 & I4). destruct (where_dec (target_of x) w) as [Ew|Nw].
    2:{ assert (E : uset w (hist ++ [x]) = uset w hist) by (unfold uset; rewrite rexec_snoc; now apply on_other).
        unfold ok_state. rewrite E. split; [|split; [|split]].
        - intros q. rewrite I1. split; intros (h & p & -> & H); exists h, p; (split; [reflexivity|]).
          + apply in_force_snoc. right. split; [exact H|]. intros [-> |[_ ->]]; now apply Nw.
          + apply in_force_snoc in H as [-> |[H _]]; [elim Nw; reflexivity|exact H].
        - intros q Hq. rewrite (I2 q Hq). split; intros (h & p & -> & H); exists h, p; (split; [reflexivity|]).
          + apply in_force_snoc. right. split; [exact H|]. intros [-> |[_ ->]]; now apply Nw.
          + apply in_force_snoc in H as [-> |[H _]]; [elim Nw; reflexivity|exact H].
        - rewrite I3, restricted_snoc. split; intros H K; apply H.
          + destruct K as [[-> |(? & ? & ->)]|[K _]]; [elim Nw; reflexivity|elim Nw; reflexivity|exact K].
          + right. split; [exact K|]. intros ->. now apply Nw.
        - rewrite I4, opened_snoc. split; [intros H; right; split; [exact H|]; intros o h p ->; now apply Nw|].
          intros [[-> _]|[H _]]; [elim Nw; reflexivity|exact H]. }
    subst w. unfold ok_state. assert (E : uset (target_of x) (hist ++ [x]) = permission_set_get (rexec1 (rexec hist) x) (target_of x)) by (unfold uset; now rewrite rexec_snoc).
    rewrite E. clear E. unfold uset in *. set (p0 := rexec hist) in *. clearbody p0.
    destruct x as [v|o v h p|v|o v]; cbn [target_of rexec1] in *; set (s := permission_set_get p0 v) in *.
    + (* permit all *) unfold channel_permit_all. fold s.
      assert (Hu : (if is_nil (s_user s) then s_user s else s_user s) = s_user s) by (destruct (is_nil _); reflexivity).
      assert (G : permission_set_get (if is_nil (s_user s) then put_set p0 v (mkS (s_user s) (s_admin s) true) else p0) v = mkS (s_user s) (s_admin s) (is_nil (s_user s) || s_all s)).
      { destruct (is_nil (s_user s)) eqn:En; [rewrite get_put; reflexivity|]. fold s. destruct s; reflexivity. }
      rewrite G. cbn [s_user s_admin s_all]. clear G Hu. split; [|split; [|split]].
      * intros q. rewrite I1. split; intros (h & p & -> & H); exists h, p; (split; [reflexivity|]).
        -- apply in_force_snoc. right. split; [exact H|]. intros [H0|[H0 _]]; discriminate.
        -- apply in_force_snoc in H as [H|[H _]]; [discriminate|exact H].
      * intros q Hq. rewrite (I2 q Hq). split; intros (h & p & -> & H); exists h, p; (split; [reflexivity|]).
        -- apply in_force_snoc. right. split; [exact H|]. intros [H0|[_ H0]]; discriminate.
        -- apply in_force_snoc in H as [H|[H _]]; [discriminate|exact H].
      * rewrite I3, restricted_snoc. split; intros H K; apply H; [|right; split; [exact K|discriminate]].
        destruct K as [[K|(? & ? & K)]|[K _]]; try discriminate; exact K.
      * rewrite orb_true_iff, I4, opened_snoc. split.
        -- intros [H|H]; [left; split; [reflexivity|]; intros h p Hf|right; split; [exact H|discriminate]].
           assert (Hin : In (rule_perm v h p) (s_user s)) by (apply I1; eauto). destruct (s_user s); [contradiction|discriminate].
        -- intros [[_ H]|[H _]]; [left|now right]. destruct (s_user s) as [|q l] eqn:Eu; [reflexivity|]. exfalso.
           assert (Hin : In q (q :: l)) by now left. apply I1 in Hin as (h & p & _ & Hf). now apply (H h p).
    + (* add *) unfold channel_add_permission, permission_set_add. fold s. rewrite !get_put.
      assert (Eq : (match v with Local => mkQ (Some h) p None None 0 None | Remote => mkQ None 0 (Some h) None p None end) = rule_perm v h p) by (destruct v; reflexivity). rewrite Eq.
      assert (Nc : rule_perm v h p <> cleared) by (destruct v; discriminate).
      destruct o; cbn [get_array put_array s_user s_admin s_all]; split; [|split; [|split]| |split; [|split]].
      * intros q. rewrite I1. split; intros (h' & p' & -> & H); exists h', p'; (split; [reflexivity|]).
        -- apply in_force_snoc. right. split; [exact H|]. intros [H0|[H0 _]]; discriminate.
        -- apply in_force_snoc in H as [H|[H _]]; [discriminate|exact H].
      * intros q Hq. rewrite in_app_iff, (I2 q Hq). split.
        -- intros [(h' & p' & -> & H)|[<-|[]]].
           ++ exists h', p'. split; [reflexivity|]. apply in_force_snoc. right. split; [exact H|]. intros [H0|[_ H0]]; discriminate.
           ++ exists h, p. split; [reflexivity|]. apply in_force_snoc. now left.
        -- intros (h' & p' & -> & H). apply in_force_snoc in H as [H|[H _]]; [injection H as -> ->; right; now left|left; eauto].
      * split; [intros H; destruct (s_admin s); discriminate|]. intros H. elim H. apply restricted_snoc. left. right. eauto.
      * split; [discriminate|]. intros H. apply opened_snoc in H as [[H _]|[_ H]]; [discriminate|]. elim (H Admin h p). reflexivity.
      * intros q. rewrite in_app_iff, I1. split.
        -- intros [(h' & p' & -> & H)|[<-|[]]].
           ++ exists h', p'. split; [reflexivity|]. apply in_force_snoc. right. split; [exact H|]. intros [H0|[H0 _]]; discriminate.
           ++ exists h, p. split; [reflexivity|]. apply in_force_snoc. now left.
        -- intros (h' & p' & -> & H). apply in_force_snoc in H as [H|[H _]]; [injection H as -> ->; right; now left|left; eauto].
      * intros q Hq. rewrite (I2 q Hq). split; intros (h' & p' & -> & H); exists h', p'; (split; [reflexivity|]).
        -- apply in_force_snoc. right. split; [exact H|]. intros [H0|[_ H0]]; discriminate.
        -- apply in_force_snoc in H as [H|[H _]]; [discriminate|exact H].
      * rewrite I3, restricted_snoc. split; intros H K; apply H; [|right; split; [exact K|discriminate]].
        destruct K as [[K|(? & ? & K)]|[K _]]; try discriminate; exact K.
      * split; [discriminate|]. intros H. apply opened_snoc in H as [[H _]|[_ H]]; [discriminate|]. elim (H User h p). reflexivity.
    + (* disable *) unfold channel_disable_admin, channel_clear_permission, permission_set_add. fold s. rewrite !get_put.
      cbn [get_array put_array s_user s_admin s_all app]. split; [|split; [|split]].
      * intros q. rewrite I1. split; intros (h' & p' & -> & H); exists h', p'; (split; [reflexivity|]).
        -- apply in_force_snoc. right. split; [exact H|]. intros [H0|[H0 _]]; discriminate.
        -- apply in_force_snoc in H as [H|[H _]]; [discriminate|exact H].
      * intros q Hq. split; [intros [<-|[]]; congruence|]. intros (h' & p' & -> & H). apply in_force_snoc in H as [H|[_ H]]; [discriminate|]. elim H. right. auto.
      * split; [discriminate|]. intros H. elim H. apply restricted_snoc. left. now left.
      * rewrite I4, opened_snoc. split; [intros H; right; split; [exact H|discriminate]|]. intros [[H _]|[H _]]; [discriminate|exact H].
    + (* clear *) unfold channel_clear_permission. fold s. rewrite get_put. destruct o; cbn [put_array s_user s_admin s_all]; split; [|split; [|split]| |split; [|split]].
      * intros q. rewrite I1. split; intros (h' & p' & -> & H); exists h', p'; (split; [reflexivity|]).
        -- apply in_force_snoc. right. split; [exact H|]. intros [H0|[H0 _]]; discriminate.
        -- apply in_force_snoc in H as [H|[H _]]; [discriminate|exact H].
      * intros q Hq. split; [intros []|]. intros (h' & p' & -> & H). apply in_force_snoc in H as [H|[_ H]]; [discriminate|]. elim H. now left.
      * split; [|reflexivity]. intros _ K. apply restricted_snoc in K as [[K|(? & ? & K)]|[_ K]]; try discriminate. now apply K.
      * rewrite I4, opened_snoc. split; [intros H; right; split; [exact H|discriminate]|]. intros [[H _]|[H _]]; [discriminate|exact H].
      * intros q. split; [intros []|]. intros (h' & p' & -> & H). apply in_force_snoc in H as [H|[_ H]]; [discriminate|]. elim H. now left.
      * intros q Hq. rewrite (I2 q Hq). split; intros (h' & p' & -> & H); exists h', p'; (split; [reflexivity|]).
        -- apply in_force_snoc. right. split; [exact H|]. intros [H0|[_ H0]]; discriminate.
        -- apply in_force_snoc in H as [H|[H _]]; [discriminate|exact H].
      * rewrite I3, restricted_snoc. split; intros H K; apply H; [|right; split; [exact K|discriminate]].
        destruct K as [[K|(? & ? & K)]|[K _]]; try discriminate; exact K.
      * rewrite I4, opened_snoc. split; [intros H; right; split; [exact H|discriminate]|]. intros [[H _]|[H _]]; [discriminate|exact H].
Qed.
Lemma history_permits : forall w hist m, m cleared = false ->
  (permits (uset w hist) m = true <->
   (opened_up w hist \/ exists h p, in_force User w hist h p /\ m (rule_perm w h p) = true) /\
   (~ restricted w hist \/ exists h p, in_force Admin w hist h p /\ m (rule_perm w h p) = true)).
Proof.
  intros w hist m Hc. destruct (ok_state_all w hist) as (I1 & I2 & I3 & I4). rewrite permits_iff, I3, I4.
  assert (A : (exists q, In q (s_user (uset w hist)) /\ m q = true) <-> exists h p, in_force User w hist h p /\ m (rule_perm w h p) = true).
  { split; [intros (q & H & Hm); apply I1 in H as (h & p & -> & H); eauto|]. intros (h & p & H & Hm). exists (rule_perm w h p). split; [apply I1; eauto|exact Hm]. }
  assert (B : (exists q, In q (s_admin (uset w hist)) /\ m q = true) <-> exists h p, in_force Admin w hist h p /\ m (rule_perm w h p) = true).
  { split; [intros (q & H & Hm); assert (Hq : q <> cleared) by (intros ->; congruence); apply (I2 q Hq) in H as (h & p & -> & H); eauto|].
    intros (h & p & H & Hm). exists (rule_perm w h p). split; [apply I2; [intros E; rewrite E in Hm; congruence|eauto]|exact Hm]. }
  rewrite A, B. reflexivity.
Qed.

(** ** Set-up from the configuration *)
Lemma add_rules_get : forall serv two ts p o w p', add_rules serv two p o w ts = Some p' ->
  (forall w', w' <> w -> permission_set_get p' w' = permission_set_get p w') /\
  exists rs, Forall2 (fun t r => denotes serv (seps two) t (fst r) (snd r)) ts rs /\
    permission_set_get p' w = (if is_nil ts then permission_set_get p w else
      let s := permission_set_get p w in put_array (mkS (s_user s) (s_admin s) false) o (get_array s o ++ map (fun r => rule_perm w (fst r) (snd r)) rs)).
Proof.
  induction ts as [|t r IH]; intros p o w p' E; cbn [add_rules] in E.
  - injection E as <-. split; [reflexivity|]. exists []. split; [constructor|reflexivity].
  - destruct (parse_rule serv two t) as [[h q]|] eqn:Ep; [|discriminate]. apply parse_rule_denotes in Ep.
    destruct (IH _ _ _ _ E) as (H1 & rs & H2 & H3). split.
    + intros w' Hw. rewrite (H1 w' Hw). unfold channel_add_permission, permission_set_add. rewrite !get_put_other by congruence. reflexivity.
    + exists ((h, q) :: rs). split; [constructor; [exact Ep|exact H2]|]. rewrite H3. cbn [is_nil map fst snd].
      unfold channel_add_permission, permission_set_add. rewrite !get_put.
      assert (Eq : (match w with Local => mkQ (Some h) q None None 0 None | Remote => mkQ None 0 (Some h) None q None end) = rule_perm w h q) by (destruct w; reflexivity). rewrite Eq.
      destruct r as [|t2 r]; cbn [is_nil].
      * inversion H2; subst. cbn [map]. destruct o; reflexivity.
      * cbv zeta. destruct o; cbn [get_array put_array s_user s_admin s_all]; rewrite <- app_assoc; reflexivity.
Qed.
Lemma rules_exist : forall serv two ts rs w m ok, Forall2 (fun t (r : list Z * Z) => denotes serv (seps two) t (fst r) (snd r)) ts rs ->
  (forall h p, m (rule_perm w h p) = true <-> ok h p) ->
  ((exists q, In q (map (fun r => rule_perm w (fst r) (snd r)) rs) /\ m q = true) <-> exists t h p, In t ts /\ denotes serv (seps two) t h p /\ ok h p).
Proof.
  intros serv two ts rs w m ok F Hm. split.
  - intros (q & Hq & Hmq). apply in_map_iff in Hq as ([h p] & <- & Hin). cbn [fst snd] in *.
    induction F as [|t r ts rs Ht F IH]; [contradiction|]. destruct Hin as [-> |Hin].
    + exists t, h, p. cbn [fst snd] in Ht. split; [now left|]. split; [exact Ht|]. now apply Hm.
    + destruct (IH Hin) as (t' & h' & p' & H1 & H2 & H3). exists t', h', p'. split; [now right|auto].
  - intros (t & h & p & Hin & Hd & Hok).
    assert (K : exists r, In r rs /\ denotes serv (seps two) t (fst r) (snd r)).
    { clear Hd Hok. induction F as [|t1 r ts rs Ht F IH]; [contradiction|]. destruct Hin as [-> |Hin]; [exists r; split; [now left|exact Ht]|].
      destruct (IH Hin) as (r' & H1 & H2). exists r'. split; [now right|exact H2]. }
    destruct K as ([h' p'] & Hr & Hd'). cbn [fst snd] in Hd'. apply parse_rule_denotes in Hd, Hd'. rewrite Hd in Hd'. injection Hd' as <- <-.
    exists (rule_perm w h p). split; [apply in_map_iff; exists (h, p); auto|now apply Hm].
Qed.

Lemma where_other : forall w : where_, exists w', w' <> w /\ forall v, v = w \/ v = w'.
Proof. intros []; [exists Remote|exists Local]; (split; [discriminate|intros []; auto]). Qed.

(** The administrator's list, one direction. *)
Lemma admin_list : forall serv p w opens p', server_process_permitopen_list serv p w opens = Some p' ->
  (forall w', w' <> w -> permission_set_get p' w' = permission_set_get p w') /\
  s_user (permission_set_get p' w) = s_user (permission_set_get p w) /\
  (s_all (permission_set_get p w) = false -> s_all (permission_set_get p' w) = false) /\
  forall m ok, m cleared = false -> (forall h q, m (rule_perm w h q) = true <-> ok h q) ->
   (s_admin (permission_set_get p' w) = [] \/ (exists q, In q (s_admin (permission_set_get p' w)) /\ m q = true) <-> admin_allows serv opens ok).
Proof.
  intros serv p w opens p' E. unfold server_process_permitopen_list in E. cbv zeta in E. set (p1 := channel_clear_permission p Admin w) in *.
  assert (G1 : permission_set_get p1 w = mkS (s_user (permission_set_get p w)) [] (s_all (permission_set_get p w))) by (unfold p1, channel_clear_permission; now rewrite get_put).
  assert (G2 : forall w', w' <> w -> permission_set_get p1 w' = permission_set_get p w') by (intros w' Hw; unfold p1, channel_clear_permission; apply get_put_other; congruence).
  assert (R : opens <> [] -> opens <> [bs "any"] -> add_rules serv false p1 Admin w opens = Some p' ->
    (forall w', w' <> w -> permission_set_get p' w' = permission_set_get p w') /\
    s_user (permission_set_get p' w) = s_user (permission_set_get p w) /\
    (s_all (permission_set_get p w) = false -> s_all (permission_set_get p' w) = false) /\
    forall m ok, m cleared = false -> (forall h q, m (rule_perm w h q) = true <-> ok h q) ->
     (s_admin (permission_set_get p' w) = [] \/ (exists q, In q (s_admin (permission_set_get p' w)) /\ m q = true) <-> admin_allows serv opens ok)).
  { intros N1 N2 Ea. destruct (add_rules_get _ _ _ _ _ _ _ Ea) as (H1 & rs & H2 & H3). split; [intros w' Hw; now rewrite (H1 w' Hw), G2|].
    rewrite G1 in H3. cbv zeta in H3. destruct opens as [|o1 opens]; [congruence|]. cbn [is_nil put_array get_array s_user s_admin s_all app] in H3. rewrite H3. cbn [s_user s_admin s_all].
    split; [reflexivity|]. split; [reflexivity|]. intros m ok Hc Hm. rewrite (rules_exist serv false (o1 :: opens) rs w m ok H2 Hm). unfold admin_allows. cbn [seps].
    split; [|intros [H|[H|H]]; [congruence|congruence|now right]]. intros [H|H]; [inversion H2; subst; discriminate|right; now right]. }
  assert (K : p' = p1 -> opens = [] \/ opens = [bs "any"] ->
    (forall w', w' <> w -> permission_set_get p' w' = permission_set_get p w') /\
    s_user (permission_set_get p' w) = s_user (permission_set_get p w) /\
    (s_all (permission_set_get p w) = false -> s_all (permission_set_get p' w) = false) /\
    forall m ok, m cleared = false -> (forall h q, m (rule_perm w h q) = true <-> ok h q) ->
     (s_admin (permission_set_get p' w) = [] \/ (exists q, In q (s_admin (permission_set_get p' w)) /\ m q = true) <-> admin_allows serv opens ok)).
  { intros -> Ho. rewrite G1. cbn [s_user s_admin s_all]. splits; auto. intros m ok Hc Hm. unfold admin_allows. split; [|now left]. intros _. destruct Ho; auto. }
  destruct opens as [|o1 [|o2 opens]].
  - injection E as <-. apply K; auto.
  - destruct (beqb o1 (bs "any")) eqn:E1; [apply beqb_eq in E1; subst o1; injection E as <-; apply K; auto|].
    assert (N : [o1] <> [bs "any"]) by (intros H; injection H as ->; vm_compute in E1; discriminate).
    destruct (beqb o1 (bs "none")) eqn:E2; [|apply R; auto; discriminate].
    apply beqb_eq in E2. subst o1. injection E as <-. unfold channel_disable_admin, permission_set_add. cbv zeta. clear R K.
    assert (G3 : forall w', w' <> w -> permission_set_get (channel_clear_permission p1 Admin w) w' = permission_set_get p w') by (intros w' Hw; unfold channel_clear_permission; rewrite get_put_other by congruence; now apply G2).
    split; [intros w' Hw; rewrite get_put_other by congruence; now apply G3|]. rewrite get_put. unfold channel_clear_permission. rewrite get_put, G1. cbn [put_array get_array s_user s_admin s_all app].
    splits; auto. intros m ok Hc Hm. split.
    + intros [H|(q & [<-|[]] & H)]; [discriminate|congruence].
    + intros [H|[H|(t & h & q & [<-|[]] & Hd & _)]]; [discriminate|elim N; exact H|]. apply (parse_rule_denotes serv false) in Hd. vm_compute in Hd. discriminate.
  - apply R; auto; discriminate.
Qed.

(** The user's list, one direction: cleared, filled, and opened up if empty. *)
Lemma user_list : forall serv two p w texts p1 p', s_all (permission_set_get p w) = false ->
  add_rules serv two (channel_clear_permission p User w) User w texts = Some p1 -> p' = channel_permit_all p1 w ->
  (forall w', w' <> w -> permission_set_get p' w' = permission_set_get p w') /\
  s_admin (permission_set_get p' w) = s_admin (permission_set_get p w) /\
  forall m ok, (forall h q, m (rule_perm w h q) = true <-> ok h q) ->
   (s_all (permission_set_get p' w) = true \/ (exists q, In q (s_user (permission_set_get p' w)) /\ m q = true) <-> user_allows serv (seps two) texts ok).
Proof.
  intros serv two p w texts p1 p' Ha E ->. destruct (add_rules_get _ _ _ _ _ _ _ E) as (H1 & rs & H2 & H3).
  assert (G1 : permission_set_get (channel_clear_permission p User w) w = mkS [] (s_admin (permission_set_get p w)) false) by (unfold channel_clear_permission; rewrite get_put; cbn [put_array]; now rewrite Ha).
  rewrite G1 in H3. cbv zeta in H3. cbn [put_array get_array s_user s_admin s_all app] in H3.
  assert (O : forall w', w' <> w -> permission_set_get p1 w' = permission_set_get p w') by (intros w' Hw; rewrite (H1 w' Hw); unfold channel_clear_permission; apply get_put_other; congruence).
  split; [intros w' Hw; unfold channel_permit_all; cbv zeta; destruct (is_nil (s_user (permission_set_get p1 w))); [rewrite get_put_other by congruence|]; now apply O|].
  unfold channel_permit_all. destruct texts as [|t texts]; cbn [is_nil] in H3; rewrite H3; cbn [s_user s_admin s_all is_nil].
  - rewrite get_put. cbn [s_admin s_all s_user]. split; [reflexivity|]. intros m ok Hm. split; [now left|auto].
  - inversion H2 as [|? r ? rs' Hr F]; subst. cbn [map is_nil]. rewrite H3. cbn [s_admin s_all s_user]. split; [reflexivity|]. intros m ok Hm.
    rewrite (rules_exist serv two (t :: texts) (r :: rs') w m ok H2 Hm). unfold user_allows. split; [intros [H|H]; [discriminate|auto]|intros [H|H]; [discriminate|auto]].
Qed.

(** ** Client *)
Definition reg_entry (r : forward + nat * list Z * Z) : perm :=
  match r with inl f => entry_of f | inr (c, h, n) => mkQ (Some (bs "<mux>")) (-1) (Some h) None n (Some c) end.
Definition live (ops : list cop) (i : nat) (q : perm) : Prop :=
  q_host q = None \/ exists r, nth_error (registered ops) i = Some r /\
    q_host q = q_host (reg_entry r) /\ q_port q = q_port (reg_entry r) /\ q_lhost q = q_lhost (reg_entry r) /\
    q_lpath q = q_lpath (reg_entry r) /\ q_down q = q_down (reg_entry r) /\ known_port ops i (q_lport (reg_entry r)) (q_lport q).
Definition cinv (ops : list cop) (l : list perm) : Prop :=
  length l = length (registered ops) /\ forall i q, nth_error l i = Some q -> live ops i q.
Lemma registered_app : forall a b, registered (a ++ b) = registered a ++ registered b.
Proof. induction a as [|x a IH]; intros b; [reflexivity|]. destruct x; cbn [app registered]; now rewrite IH. Qed.
Lemma live_more : forall ops i q x, live ops i q -> live (ops ++ [x]) i q.
Proof.
  intros ops i q x [H|(r & H1 & H2 & H3 & H4 & H5 & H6 & H7)]; [now left|]. right. exists r. rewrite registered_app.
  splits; auto; [rewrite nth_error_app1; [exact H1|]; apply nth_error_Some; congruence|].
  destruct H7 as [H|(bug & n & H & E)]; [now left|]. right. exists bug, n. split; [apply in_or_app; now left|exact E].
Qed.
Lemma nth_clear_first : forall m l i q, nth_error (clear_first m l) i = Some q -> q = cleared \/ nth_error l i = Some q.
Proof.
  induction l as [|y l IH]; intros i q E; [destruct i; discriminate|]. cbn [clear_first] in E. destruct (m y).
  - destruct i; cbn in E |- *; [left; congruence|now right].
  - destruct i; cbn in E |- *; [now right|]. now apply IH.
Qed.
Lemma clear_first_length : forall m l, length (clear_first m l) = length l.
Proof. induction l as [|y l IH]; [reflexivity|]. cbn [clear_first]. destruct (m y); cbn [length]; [reflexivity|now rewrite IH]. Qed.
Lemma set_nth_length : forall A (l : list A) n x, length (set_nth l n x) = length l.
Proof. induction l as [|y l IH]; intros [|n] x; cbn [set_nth length]; auto. Qed.
Lemma nth_set_nth : forall A (l : list A) n x i q, nth_error (set_nth l n x) i = Some q -> (i = n /\ q = x) \/ (i <> n /\ nth_error l i = Some q).
Proof.
  induction l as [|y l IH]; intros n x i q E; [destruct n, i; discriminate|]. destruct n as [|n], i as [|i]; cbn in E |- *; [left; split; congruence|right; auto|right; auto|].
  destruct (IH n x i q E) as [[-> ->]|[H1 H2]]; [left; auto|right; auto].
Qed.
Definition users (p : perms) : list perm := s_user (p_local p).
Lemma add_users : forall p q, users (permission_set_add p User Local q) = users p ++ [q].
Proof. reflexivity. Qed.
Lemma on_users : forall p f, users (on_user p f) = f (users p).
Proof. reflexivity. Qed.
Lemma cinv_step : forall ops p x, cinv ops (users p) -> cinv (ops ++ [x]) (users (cexec1 p x)).
Proof.
  intros ops p x (L & H).
  assert (NEW : forall r, registered [x] = [r] -> cinv (ops ++ [x]) (users p ++ [reg_entry r])).
  { intros r Er. split; [rewrite app_length, registered_app, app_length, L, Er; reflexivity|]. intros i q E.
    destruct (Nat.lt_ge_cases i (length (users p))) as [Hi|Hi].
    - rewrite nth_error_app1 in E by exact Hi. apply live_more. now apply H.
    - rewrite nth_error_app2 in E by exact Hi. destruct (i - length (users p))%nat as [|k] eqn:Ek; cbn in E; [|destruct k; discriminate]. injection E as <-.
      right. exists r. rewrite registered_app, Er. splits; auto; [|now left]. rewrite nth_error_app2 by lia. replace (i - length (registered ops))%nat with 0%nat by lia. reflexivity. }
  assert (LEN : registered [x] = [] -> length (users (cexec1 p x)) = length (users p) -> length (users (cexec1 p x)) = length (registered (ops ++ [x]))).
  { intros E1 E2. rewrite registered_app, E1, app_nil_r. lia. }
  destruct x as [f|f al|bug idx n|c h n|c]; cbn [cexec1] in *.
  - unfold channel_request_remote_forwarding. rewrite add_users. exact (NEW (inl f) eq_refl).
  - assert (G : exists m, users (channel_request_rforward_cancel p f al) = clear_first m (users p)) by (unfold channel_request_rforward_cancel; destruct (w_lpath f); rewrite on_users; eauto).
    destruct G as [m G]. split; [apply LEN; [reflexivity|rewrite G; apply clear_first_length]|]. rewrite G. intros i q E. apply nth_clear_first in E as [->|E]; [now left|]. apply live_more. now apply H.
  - assert (SAME : cinv (ops ++ [CUpdate bug idx n]) (users p)) by (split; [rewrite registered_app, app_nil_r; exact L|intros i q E; apply live_more; now apply H]).
    unfold channel_update_permission. destruct ((idx <? 0) || (zlen (s_user (p_local p)) <=? idx)) eqn:Eb; [exact SAME|].
    destruct (nth_error (s_user (p_local p)) (Z.to_nat idx)) as [q0|] eqn:En; [|exact SAME]. set (q1 := if n <=? 0 then cleared else _).
    change (users (put_set p Local (put_array (p_local p) User (set_nth (s_user (p_local p)) (Z.to_nat idx) q1)))) with (set_nth (users p) (Z.to_nat idx) q1).
    split; [rewrite set_nth_length, registered_app, app_nil_r; exact L|]. intros i q E. apply nth_set_nth in E as [[-> ->]|[_ E]]; [|apply live_more; now apply H].
    unfold q1. destruct (n <=? 0) eqn:Ez; [now left|]. destruct (H _ _ En) as [H0|(r & H1 & H2 & H3 & H4 & H5 & H6 & H7)]; [left; exact H0|].
    right. exists r. cbn [q_host q_port q_lhost q_lpath q_lport q_down]. rewrite registered_app. splits; auto; [rewrite nth_error_app1; [exact H1|]; apply nth_error_Some; congruence|].
    right. exists bug, n. split; [|reflexivity]. apply in_or_app. right. left. f_equal. lia.
  - unfold mux_add. rewrite add_users. exact (NEW (inr (c, h, n)) eq_refl).
  - unfold mux_remove. rewrite on_users. split; [rewrite map_length, registered_app, app_nil_r; exact L|]. intros i q E. rewrite nth_error_map in E.
    destruct (nth_error (users p) i) as [q0|] eqn:En; [|discriminate]. cbn in E. injection E as <-. destruct (is_down c q0); [now left|]. apply live_more. now apply H.
Qed.
Lemma cinv_run : forall ops p, users p = [] -> cinv ops (users (cexec p ops)).
Proof.
  intros ops p Hp. induction ops as [|x ops IH] using rev_ind.
  - cbn. rewrite Hp. split; [reflexivity|]. intros i q E. destruct i; discriminate.
  - unfold cexec in *. rewrite fold_left_app. cbn [fold_left]. now apply cinv_step.
Qed.
Lemma cexec_admin : forall ops p, s_admin (p_local (cexec p ops)) = s_admin (p_local p).
Proof.
  induction ops as [|x ops IH]; intros p; [reflexivity|]. unfold cexec in *. cbn [fold_left]. rewrite IH.
  destruct x as [f|f al|bug idx n|c h n|c]; cbn [cexec1]; try reflexivity.
  - unfold channel_request_rforward_cancel. destruct (w_lpath f); reflexivity.
  - unfold channel_update_permission. destruct (_ || _); [reflexivity|]. destruct (nth_error _ _); reflexivity.
Qed.
Lemma find_nth : forall A (m : A -> bool) l q, find m l = Some q -> m q = true /\ exists i, nth_error l i = Some q.
Proof.
  intros A m l q E. split; [eapply find_some; eauto|]. apply find_some in E as [Hin _]. apply In_nth_error in Hin. exact Hin.
Qed.
Lemma entry_host : forall f h p, q_host (entry_of f) = Some h -> q_port (entry_of f) = p -> leads_to f h p.
Proof.
  intros f h p. unfold entry_of, leads_to. destruct (w_cpath f) as [x|], (w_lpath f) as [y|]; cbn; intros E1 E2; [injection E1 as ->; auto|injection E1 as ->; auto|auto|auto].
Qed.
Lemma entry_listen : forall f, channel_rfwd_bind_host (q_lhost (entry_of f)) = asks_for f /\ q_lport (entry_of f) = asks_port f /\ q_down (entry_of f) = None /\ q_lpath (entry_of f) = w_lpath f.
Proof. intros f. unfold entry_of, asks_for, asks_port. destruct (w_cpath f), (w_lpath f); cbn; auto. Qed.
Lemma tcp_match : forall q host port, open_listen_match_tcpip q (Some host) port true = true <->
  q_host q <> None /\ q_lport q = port /\ channel_rfwd_bind_host (q_lhost q) = host.
Proof.
  intros q host port. unfold open_listen_match_tcpip. destruct (q_host q) as [h|]; [|split; [discriminate|intros [H _]; now elim H]]. cbn [negb andb].
  destruct (q_lport q =? port) eqn:E; cbn [negb]; [|split; [discriminate|lia]]. rewrite beqb_eq. split; [intros H; splits; auto; [discriminate|lia]|tauto].
Qed.
Lemma cancel_match : forall q host port, open_listen_match_tcpip q host port false = true <->
  q_host q <> None /\ q_lport q = port /\ q_lhost q = host.
Proof.
  intros q host port. unfold open_listen_match_tcpip. destruct (q_host q) as [h|]; [|split; [discriminate|intros [H _]; now elim H]]. cbn [negb andb].
  destruct (q_lport q =? port) eqn:E; cbn [negb]; [|split; [discriminate|lia]].
  assert (N : Some h <> None) by discriminate. destruct (q_lhost q) as [a|], host as [b|]; cbn.
  - rewrite beqb_eq. split; [intros ->; splits; auto; lia|intros (_ & _ & H); congruence].
  - split; [discriminate|intros (_ & _ & H); discriminate].
  - split; [discriminate|intros (_ & _ & H); discriminate].
  - split; [intros _; splits; auto; lia|reflexivity].
Qed.
