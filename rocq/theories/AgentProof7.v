(** Bindings over steps, additions with one constraint, and the invariant on
    recorded providers. *)
From Coq Require Import String.
From Verif Require Import Base Text SshbufModel SshbufSpec SshbufProof WireSpec WireProof MatchModel MatchSpec MatchProof MiscNumModel Dec AuthOptModel AuthOptProof AgentModel AgentSpec AgentProof AgentProof2 AgentProof3 AgentProof4 AgentProof5 AgentProof6.
Open Scope Z_scope.

Lemma conn_set : forall a n m x e, nth_error (a_socks a) m = Some x ->
  forall g, conn (mkAg g (set_nth m e (a_socks a))) n = if Nat.eqb n m then (if s_type e =? AUTH_CONNECTION then Some e else None) else conn a n.
Proof.
  intros a n m x e N g. unfold conn. cbn [a_socks]. destruct (Nat.eqb n m) eqn:E.
  - apply Nat.eqb_eq in E. subst. now rewrite (set_nth_same _ _ _ _ N).
  - apply Nat.eqb_neq in E. now rewrite (set_nth_other _ _ _ _ _ N) by congruence.
Qed.
Lemma step_binds : forall c a ev a' os n e', Inv c a -> step c a ev = Run a' os -> conn a' n = Some e' ->
  (exists e, conn a n = Some e /\ (s_attempted e = true -> s_attempted e' = true) /\
     (s_ids e' = s_ids e \/ exists en req k sid sig fwd, ev = EvMessage n en /\ In (OReply req success) os /\ bind_request c req k sid sig fwd /\
        c_verify c k sig sid = true /\ s_ids e' = s_ids e ++ [mkHS k sid (negb (fwd =? 0))])) \/
  (conn a n = None /\ ev = EvAccept /\ s_ids e' = [] /\ s_attempted e' = false).
Proof.
  intros c a ev a' os n e' I0 H C'. destruct ev as [|m bytes|m en|m|m count|now|].
  - injection H as <- <-. destruct I0 as [_ S]. unfold new_socket in C'. destruct (first_unused (a_socks a)) as [m|] eqn:F.
    + destruct (first_unused_spec _ _ F) as (x & N & U). rewrite N in C'. rewrite (conn_set _ _ _ _ _ N) in C'. destruct (Nat.eqb n m) eqn:E; [|left; exists e'; auto].
      cbn [s_type] in C'. change (AUTH_CONNECTION =? AUTH_CONNECTION) with true in C'. cbv iota in C'. injection C' as <-. right. apply Nat.eqb_eq in E. subst.
      rewrite Forall_forall in S. destruct (S x (nth_error_In _ _ N)) as (_ & _ & K). unfold AUTH_UNUSED, AUTH_CONNECTION in *. destruct K as [K1 K2]; [lia|].
      split; [unfold conn; rewrite N, U; reflexivity|]. auto.
    + unfold conn in C'. cbn [a_socks] in C'. destruct (Nat.lt_ge_cases n (length (a_socks a))) as [L|L].
      * rewrite nth_error_app1 in C' by assumption. left. exists e'. auto.
      * rewrite nth_error_app2 in C' by assumption. right. split; [unfold conn; rewrite (proj2 (nth_error_None (a_socks a) n) L); reflexivity|]. split; [reflexivity|].
        destruct (n - length (a_socks a))%nat as [|k]; cbn [nth_error] in C'; [injection C' as <-; auto|].
        destruct (nth_error (repeat unused_sock 9) k) as [x|] eqn:Ek; [|discriminate]. apply nth_error_In, repeat_spec in Ek. subst. discriminate.
  - cbn [step] in H. destruct (conn a m) as [x|] eqn:C; [|injection H as <- <-; left; exists e'; auto]. destruct (put bytes _) as [i|]; [|discriminate]. injection H as <- <-.
    destruct (conn_nth _ _ _ C) as [N Ty]. rewrite (conn_set _ _ _ _ _ N) in C'. cbn [s_type] in C'. rewrite Ty in C'. destruct (Nat.eqb n m) eqn:E; [|left; exists e'; auto].
    apply Nat.eqb_eq in E. subst. injection C' as <-. left. exists x. auto.
  - pose proof H as H0. apply message_inv in H as [(-> & [->|[(x & C) ->]])|(x & rq & rest & t & b & g & e1 & rp & os1 & out & C & G & Ty & D & P & -> & ->)]; [left; exists e'; auto| |].
    + destruct (conn_nth _ _ _ C) as [N _]. unfold close_socket in C'. rewrite (conn_set _ _ _ _ _ N) in C'. destruct (Nat.eqb n m); [discriminate|left; exists e'; auto].
    + destruct (conn_nth _ _ _ C) as [N _]. rewrite (conn_set _ _ _ _ _ N) in C'. destruct (Nat.eqb n m) eqn:E; [|left; exists e'; auto]. apply Nat.eqb_eq in E. subst m.
      destruct (s_type (answered e1 out) =? AUTH_CONNECTION); [|discriminate]. injection C' as <-. left. exists x. split; [assumption|]. unfold answered. cbn [s_ids s_attempted].
      destruct (reply_inv c a n en _ _ rq rp I0 H0) as (e' & rest' & t' & b' & e1' & os1' & out' & _ & Eq & Ht & Bb & Lb & _); [apply in_or_app; right; now left|].
      assert (t' = t /\ b' = b) as [-> ->]. { rewrite Eq in Ty. rewrite get_u8_cons in Ty by assumption. split; congruence. }
      destruct (dispatch_sock _ _ _ _ _ _ _ _ _ _ D) as [->|(Et & _ & name & b1 & ok & E1 & E2 & Bd & Er)]; [auto|].
      destruct (bind_type _ _ _ _ _ Bd) as (_ & _ & _ & At). split; [auto|]. apply bind_cases in Bd.
      destruct Bd as [| | |k b2 sid b3 sig b4 fwd b5 G1 G2 G3 G4 Ls V _ _]; cbn [s_ids quiet]; [now left|now left|now left|]. right.
      exists en, rq, k, sid, sig, fwd. split; [reflexivity|]. split; [apply in_or_app; right; left; now rewrite Er|].
      split; [|auto]. destruct (get_cstr_text _ _ _ Bb E1) as (raw & -> & Tx & B1). destruct (get_key_wire _ _ _ _ B1 G1) as (kb & -> & Wk & B2).
      destruct (get_str_spec _ _ _ B2 G2) as (-> & _ & _ & B3). destruct (get_str_spec _ _ _ B3 G3) as (-> & _ & _ & B4). destruct (get_u8_spec _ _ _ B4 G4) as (-> & Hf & _).
      exists raw, kb, b5. rewrite <- E2. split; [assumption|]. split; [assumption|]. split; [assumption|]. rewrite Eq, Et. reflexivity.
  - cbn [step] in H. destruct (conn a m) as [x|] eqn:C; injection H as <- <-; [|left; exists e'; auto].
    destruct (conn_nth _ _ _ C) as [N _]. unfold close_socket in C'. rewrite (conn_set _ _ _ _ _ N) in C'. destruct (Nat.eqb n m); [discriminate|left; exists e'; auto].
  - cbn [step] in H. destruct (conn a m) as [x|] eqn:C; injection H as <- <-; [|left; exists e'; auto].
    destruct (conn_nth _ _ _ C) as [N Ty]. rewrite (conn_set _ _ _ _ _ N) in C'. cbn [s_type] in C'. rewrite Ty in C'. destruct (Nat.eqb n m) eqn:E; [|left; exists e'; auto].
    apply Nat.eqb_eq in E. subst. injection C' as <-. left. exists x. auto.
  - injection H as <- <-. left. exists e'. auto.
  - injection H as <- <-. left. exists e'. auto.
Qed.
Lemma text_unique : forall raw v w, text raw v -> text raw w -> v = w.
Proof.
  intros raw v w [Nv Hv] [Nw Hw]. assert (S : forall x y : list Z, ~ In 0 x -> x = y ++ [0] -> False) by (intros x y Nx ->; apply Nx, in_or_app; right; now left).
  destruct Hv as [-> | ->], Hw as [Hw|Hw]; [assumption|exfalso; eauto|exfalso; symmetry in Hw; eauto|now apply app_inj_tail in Hw].
Qed.
Lemma text_cstr : forall raw v rest, text raw v -> zlen raw <= 134217724 -> get_cstr (enc_string raw ++ rest) = Some (v, rest).
Proof.
  intros raw v rest [N H] L. unfold get_cstr, dec_cstring. rewrite dec_string_ok by (change (SSHBUF_SIZE_MAX - 4) with 134217724; assumption).
  destruct H as [-> | ->].
  - replace (nul_ok v) with true by (symmetry; apply nul_ok_spec; now left). now rewrite cstr_id.
  - replace (nul_ok (v ++ [0])) with true; [|symmetry; apply nul_ok_spec; right; exists v; auto]. f_equal. f_equal. clear L rest. induction v as [|x r IH]; [reflexivity|]. cbn [app]. assert (x <> 0) by (intros ->; apply N; now left).
    cbn [SshbufModel.cstr]. replace (x =? 0) with false by lia. f_equal. apply IH. intros K. apply N. now right.
Qed.
Lemma truthful : forall c a n en a' os req k sid sig fwd, Inv c a -> step c a (EvMessage n en) = Run a' os -> In (OReply req success) os -> bind_request c req k sid sig fwd -> zlen sid <= 128 ->
  exists e' b, conn a' n = Some e' /\ In b (s_ids e') /\ same_key k (b_key b) /\ b_sid b = sid.
Proof.
  intros c a n en a' os req k sid sig fwd I0 H Ho (raw & kb & more & Tx & (blob & Ekb & Ek) & Hf & Er) L.
  destruct (reply_inv _ _ _ _ _ _ _ _ I0 H Ho) as (e & rest & t & b & e1 & os1 & out & C & Eb & Ht & Bb & Lb & D & -> & Es).
  assert (b = enc_string raw ++ kb ++ enc_string sid ++ enc_string sig ++ fwd :: more) as -> by congruence. assert (t = 27) as -> by congruence.
  rewrite zlen_app, zlen_enc in Lb. rewrite Ekb, !zlen_app, !zlen_enc, zlen_cons in Lb.
  pose proof (zlen_nonneg _ raw). pose proof (zlen_nonneg _ blob). pose proof (zlen_nonneg _ sid). pose proof (zlen_nonneg _ sig). pose proof (zlen_nonneg _ more).
  destruct (conn_nth _ _ _ C) as [N Ty].
  unfold dispatch in D. change (27 =? SSH_AGENTC_UNLOCK) with false in D. cbn [negb] in D. rewrite Bool.andb_true_r in D.
  destruct (g_locked (a_core a)); [injection D as _ _ D _; vm_compute in D; discriminate D|].
  repeat match type of D with context [27 =? ?x] => change (27 =? x) with false in D || change (27 =? x) with true in D end. cbn [orb] in D. cbv iota in D.
  apply e_ext in D as (_ & _ & [[_ D]|(name & b1 & E1 & _ & Bd & _)]); [vm_compute in D; discriminate D|].
  rewrite (text_cstr _ _ _ Tx) in E1 by lia. assert (b1 = kb ++ enc_string sid ++ enc_string sig ++ fwd :: more) as -> by congruence. clear E1.
  destruct (bind_type _ _ _ _ _ Bd) as (T1 & _ & _ & _). change (beqb success success) with true in Bd.
  assert (Cn : conn a' n = Some (answered e1 out)).
  { unfold conn. rewrite Es, (set_nth_same _ _ _ _ N). unfold answered. cbn [s_type]. rewrite T1. cbn [quiet s_type]. now rewrite Ty. }
  exists (answered e1 out). apply bind_cases in Bd.
  assert (Q : forall k' b1 sid' b2 sig' b3 fwd' b4, get_key c (kb ++ enc_string sid ++ enc_string sig ++ fwd :: more) = Some (k', b1) -> get_str b1 = Some (sid', b2) -> get_str b2 = Some (sig', b3) -> get_int 1 b3 = Some (fwd', b4) -> k' = k /\ sid' = sid).
  { intros k' b1 sid' b2 sig' b3 fwd' b4 G1 G2 G3 G4. rewrite Ekb in G1. unfold get_key in G1. rewrite get_str_enc in G1 by lia. rewrite Ek in G1.
    assert (b1 = enc_string sid ++ enc_string sig ++ fwd :: more) as -> by congruence. assert (k' = k) as -> by congruence. rewrite get_str_enc in G2 by lia. split; congruence. }
  remember true as yes eqn:Ey in Bd. destruct Bd as [|k' b1 sid' b2 sig' b3 fwd' b4 G1 G2 G3 G4 Ls|k' b1 sid' b2 sig' b3 fwd' b4 x G1 G2 G3 G4 Ls Hx Sk Sx|k' b1 sid' b2 sig' b3 fwd' b4 G1 G2 G3 G4 Ls V _ _]; [discriminate| | |];
    destruct (Q _ _ _ _ _ _ _ _ G1 G2 G3 G4) as [-> ->]; [lia| |].
  - exists x. cbn [answered s_ids]. auto.
  - exists (mkHS k sid (negb (fwd' =? 0))). cbn [answered s_ids]. split; [assumption|]. split; [apply in_or_app; right; now left|]. split; reflexivity.
Qed.

(** ** Additions with given constraints *)
Lemma add_effect : forall c a n en a' os t pk cm cons q, Inv c a -> step c a (EvMessage n en) = Run a' os -> (t = 17 \/ t = 25) ->
  In (OReply (t :: pk ++ enc_string cm ++ cons) success) os -> ~ In 0 cm -> forall k, (forall more, c_priv c (pk ++ more) = Some (k, more)) ->
  parse_key_constraints c en (length cons) (Some k) cons no_cons = Good q ->
  exists i, In i (keys a') /\ i_key i = k /\ i_comment i = cm /\ i_death i = final_death c en q /\ i_confirm i = q_confirm q /\ i_dcs i = q_dcs q /\
            (forall j, In j (keys a') -> same_key (i_key j) k -> j = i).
Proof.
  intros c a n en a' os t pk cm cons q I0 H Ht Ho Nc k Hk Hq.
  destruct (reply_inv _ _ _ _ _ _ _ _ I0 H Ho) as (e & rest & t' & b & e1 & os1 & out & C & Eb & Ht' & Bb & Lb & D & -> & Es).
  assert (b = pk ++ enc_string cm ++ cons) as -> by congruence. assert (t' = t) as -> by congruence. clear Eb.
  assert (Hcm : zlen cm <= 134217724). { rewrite !zlen_app, zlen_enc in Lb. pose proof (zlen_nonneg _ pk). pose proof (zlen_nonneg _ cons). lia. }
  assert (D' : process_add_identity c en (a_core a) (quiet e rest) (pk ++ enc_string cm ++ cons) = Some (a_core a', e1, success, os1)).
  { unfold dispatch in D. destruct (g_locked (a_core a) && negb (t =? SSH_AGENTC_UNLOCK)) eqn:L.
    { destruct Ht as [-> | ->]; injection D as _ _ D _; vm_compute in D; discriminate D. }
    destruct Ht as [-> | ->]; exact D. }
  clear D. apply e_add in D' as (_ & _ & _ & [[_ D]|[A _]]); [vm_compute in D; discriminate D|].
  destruct (add_inv _ _ _ _ _ _ A) as (k' & cm' & q' & sk & b1 & b2 & E1 & E2 & E3 & E4 & _ & _ & K). rewrite Hk in E1. assert (k' = k) as -> by congruence. assert (b1 = enc_string cm ++ cons) as -> by congruence.
  rewrite get_cstr_enc in E2 by assumption. assert (cm' = cm) as -> by congruence. assert (b2 = cons) as -> by congruence. assert (q' = q) as -> by congruence. cbv zeta beta in K.
  assert (U : NoDup (ids_of (g_ids (a_core a')))) by exact (proj2 (proj1 (step_inv c a (EvMessage n en) a' _ I0 I H))).
  assert (W : exists prov, In (mkI k cm prov (final_death c en q) (q_confirm q) sk (q_dcs q)) (g_ids (a_core a'))).
  { destruct K as [(_ & K & _)|(j & Lj & _ & K & _)]; rewrite K; [exists None; apply in_or_app; right; now left|]. exists (i_provider j). now apply (update_out k (fun i => mkI k cm (i_provider i) (final_death c en q) (q_confirm q) sk (q_dcs q))). }
  destruct W as (prov & W). eexists. split; [exact W|]. cbn [i_key i_comment i_death i_confirm i_dcs]. splits; auto. intros j Hj Sj.
  assert (Q : forall l x y, NoDup (ids_of l) -> In x l -> In y l -> same_key (i_key x) (i_key y) -> x = y).
  { clear. induction l as [|z r IH]; intros x y Nd Hx Hy S; [destruct Hx|]. cbn [ids_of map] in Nd. apply NoDup_cons_iff in Nd as [N1 N2]. unfold same_key in S.
    destruct Hx as [->|Hx], Hy as [->|Hy]; [reflexivity| | |now apply IH].
    - exfalso. apply N1. rewrite S. now apply in_ids in Hy.
    - exfalso. apply N1. rewrite <- S. now apply in_ids in Hx. }
  apply (Q _ _ _ U Hj W). exact Sj.
Qed.

(** ** Recorded providers *)
Definition provider_ok (c : cfg) (i : ident) : Prop :=
  (forall p, i_provider i = Some p -> provider_allowed c p = true) /\
  (forall p, i_sk i = Some p -> k_sk (i_key i) <> None /\ (strcaseeq p (bs "internal") = true \/ provider_allowed c p = true)).
Lemma check_sk_ok : forall c en e k q sk p, check_sk c en e k q = Some sk -> sk = Some p -> k_sk k <> None /\ (strcaseeq p (bs "internal") = true \/ provider_allowed c p = true).
Proof.
  intros c en e k q sk p H E. unfold check_sk in H. destruct q as [x|]; [|congruence]. destruct (k_sk k) eqn:K; cbn [is_some negb] in H; [|discriminate]. split; [discriminate|].
  destruct (strcaseeq x (bs "internal")) eqn:S; [left; congruence|]. destruct (_ && _); [discriminate|]. destruct (e_realpath en x) as [y|]; [|discriminate].
  destruct (provider_allowed c y) eqn:A; [|discriminate]. right. congruence.
Qed.
Lemma providers_step : forall c a ev a' os, Inv c a -> Forall (provider_ok c) (keys a) -> step c a ev = Run a' os -> Forall (provider_ok c) (keys a').
Proof.
  intros c a ev a' os I0 F H. apply Forall_forall. intros i Hi. rewrite Forall_forall in F.
  destruct (step_ids _ _ _ _ _ _ I0 H Hi) as [K|(n & en & e & rest & t & b & -> & C & _ & _ & O)]; [now apply F|].
  destruct O as [k cm q sk b1 b2 prov _ _ _ _ Sk -> Pv|k cm q p prov _ _ PA _ ->].
  - split; cbn [i_provider i_sk i_key]; intros p E; [|now apply (check_sk_ok _ _ _ _ _ _ _ Sk)].
    destruct Pv as [-> |(j & Hj & _ & ->)]; [discriminate|]. now apply (F j Hj).
  - split; cbn [i_provider i_sk i_key]; intros p' E; [congruence|discriminate].
Qed.
Lemma providers_runs : forall c evs a a' tr, Inv c a -> Forall ev_ok evs -> Forall (provider_ok c) (keys a) -> runs c a evs = Run a' tr -> Forall (provider_ok c) (keys a').
Proof.
  intros c. induction evs as [|ev r IH]; intros a a' tr I0 H F R; cbn [runs] in R; [injection R as <- <-; assumption|].
  apply Forall_cons_iff in H as [H1 H2]. destruct (step c a ev) as [|a1 os] eqn:E; [discriminate|]. destruct (runs c a1 r) as [|a2 os'] eqn:E2; [discriminate|].
  injection R as <- <-. apply (IH a1 a2 os'); [now apply (step_inv _ _ _ _ _ I0 H1 E)|assumption|now apply (providers_step _ _ _ _ _ I0 F E)|assumption].
Qed.
(** ** Single constraints *)
Lemma life_back : forall c en f k secs, 0 <= secs < 4294967296 -> (5 <= f)%nat -> parse_key_constraints c en f k (1 :: be_enc 4 secs) no_cons = Good (mkKC (e_now en + secs) false 0 None [] false []).
Proof.
  intros c en f k secs H L. destruct f as [|f]; [lia|]. cbn [parse_key_constraints]. rewrite get_u8_cons by lia. cbn [need bind]. change (1 =? 1) with true. cbv iota. change (q_death no_cons =? 0) with true. cbn [negb].
  rewrite <- (app_nil_r (be_enc 4 secs)). rewrite get_int_enc by exact H. cbn [need bind]. destruct f; reflexivity.
Qed.
Lemma confirm_back : forall c en f k, (1 <= f)%nat -> parse_key_constraints c en f k [2] no_cons = Good (mkKC 0 true 0 None [] false []).
Proof. intros c en f k L. destruct f as [|f]; [lia|]. cbn [parse_key_constraints]. rewrite get_u8_cons by lia. cbn [need bind]. change (2 =? 1) with false. change (2 =? 2) with true. cbv iota. destruct f; reflexivity. Qed.
Lemma allowed_iff : forall s l, Forall MatchSpec.fits (entries l) -> (match match_pattern_list s l false with Some r => r =? 1 | None => false end = true <-> on_list s l).
Proof.
  intros s l F. rewrite match_pattern_list_entries. destruct (mpl_spec_fits s false (entries l) false F) as [_ H2]. rewrite Z.eqb_eq, H2. unfold on_list.
  split; [intros [A [B|B]]; [discriminate|auto]|tauto].
Qed.
