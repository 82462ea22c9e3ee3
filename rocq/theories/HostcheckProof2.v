(** Proofs about the decision on a host key: the attempts. *)
From Coq Require Import String.
From Verif Require Import Base Text MatchModel HostfileModel HostfileSpec HostfileProof2 HostcheckModel HostcheckSpec HostcheckProof.
Local Open Scope Z_scope.

Definition world_of (r : hres) : hworld := match r with HAccept w | HRefuse w | HExit w | HCrash w | HLoop w => w end.
Definition pass_world (p : pass_out) : hworld := match p with PDone r => world_of r | PFail _ _ _ w => w end.

(** What a man in the middle could use is unchanged. *)
Definition same_features (o o' : hopts) : Prop :=
  ho_password o' = ho_password o /\ ho_kbdint o' = ho_kbdint o /\ ho_agent o' = ho_agent o /\ ho_x11 o' = ho_x11 o /\
  ho_local o' = ho_local o /\ ho_remote o' = ho_remote o /\ ho_tun o' = ho_tun o.
Lemma same_refl : forall o, same_features o o.
Proof. intros o. unfold same_features. tauto. Qed.
Lemma same_trans : forall a b c, same_features a b -> same_features b c -> same_features a c.
Proof. unfold same_features. intuition congruence. Qed.
Lemma same_unexposed : forall o o', same_features o o' -> unexposed o' -> unexposed o.
Proof. unfold same_features, unexposed. intros o o' (-> & -> & -> & -> & -> & -> & ->). tauto. Qed.

Section P.
Variable cf : hconf.
Variable en : henv.
Notation evolves := (evolves cf).
Notation asked := (asked cf).

Lemma st_eqb_eq : forall a b, st_eqb a b = true <-> a = b.
Proof. intros [] []; split; try discriminate; reflexivity. Qed.

(** An address on which another key is listed. *)
Definition address_clash (w : hworld) (st ipst : hstatus) : Prop := ho_check_ip (hw_o w) = true /\ st <> HOST_CHANGED /\ ipst = HOST_CHANGED.
Lemma after_ok : forall wc st ipst ro tr w, let p := after_switch cf wc st ipst ro tr w in
  evolves w (pass_world p) /\ same_features (hw_o w) (hw_o (pass_world p)) /\
  ((exists w', p = PDone (HAccept w') /\ (tr = false -> ho_update (hw_o w') = false) /\
      (address_clash w st ipst -> hc_strict cf = STRICT_OFF \/ (hc_strict cf = STRICT_ASK /\ asked None w w'))) \/
   (exists w', p = PFail wc (Some st) ro w' /\ address_clash w st ipst /\ hc_strict cf <> STRICT_OFF)) /\
  (~ address_clash w st ipst \/ hc_strict cf = STRICT_OFF -> p = PDone (HAccept (if tr then w else with_o no_update w))).
Proof.
  intros wc st ipst ro tr w p. unfold p, after_switch. clear p.
  assert (Fin : forall w1, evolves w w1 -> same_features (hw_o w) (hw_o w1) ->
    let w' := if tr then w1 else with_o no_update w1 in
    evolves w w' /\ evolves w1 w' /\ same_features (hw_o w) (hw_o w') /\ (tr = false -> ho_update (hw_o w') = false)).
  { intros w1 E1 S1 w'. unfold w'. destruct tr.
    - repeat (split; [assumption || apply evolves_refl|]). discriminate.
    - assert (E2 : evolves w1 (with_o no_update w1)) by apply with_evolves, no_update_tighter.
      split; [eapply evolves_trans; eassumption|]. split; [exact E2|]. split; [|reflexivity]. eapply same_trans; [exact S1|]. unfold same_features, with_o, no_update. cbn. tauto. }
  destruct (ho_check_ip (hw_o w) && negb (st_eqb st HOST_CHANGED) && st_eqb ipst HOST_CHANGED) eqn:C.
  - assert (A : address_clash w st ipst).
    { apply andb_true_iff in C as [C C3]. apply andb_true_iff in C as [C1 C2]. apply st_eqb_eq in C3. apply negb_true_iff in C2. repeat split; [exact C1| |exact C3].
      intros ->. discriminate. }
    destruct (hc_strict cf =? STRICT_ASK) eqn:K.
    + destruct (confirm (hc_batch cf) None w) as [b w1] eqn:Q. destruct (confirm_evolves cf None w b w1 Q) as (E & S & As).
      assert (S1 : same_features (hw_o w) (hw_o w1)) by (rewrite S; apply same_refl). destruct b.
      * destruct (Fin w1 E S1) as (F1 & F2 & F3 & F4). cbn [pass_world world_of]. split; [exact F1|]. split; [exact F3|]. split.
        -- left. eexists. split; [reflexivity|]. split; [exact F4|]. intros _. right. split; [lia|]. eapply asked_later; [now apply As|exact F2].
        -- intros [N|O]; [now elim N|]. exfalso. unfold STRICT_OFF, STRICT_ASK in *. lia.
      * cbn [pass_world]. split; [exact E|]. split; [exact S1|]. split; [right; eexists; split; [reflexivity|split; [exact A|unfold STRICT_OFF, STRICT_ASK in *; lia]]|]. intros [N|O]; [now elim N|]. exfalso. unfold STRICT_OFF, STRICT_ASK in *. lia.
    + destruct (negb (hc_strict cf =? STRICT_OFF)) eqn:O.
      * cbn [pass_world]. split; [apply evolves_refl|]. split; [apply same_refl|]. split; [right; eexists; split; [reflexivity|split; [exact A|unfold STRICT_OFF, STRICT_ASK in *; lia]]|]. intros [N|O']; [now elim N|]. exfalso. lia.
      * destruct (Fin w (evolves_refl cf w) (same_refl _)) as (F1 & _ & F3 & F4). cbn [pass_world world_of]. split; [exact F1|]. split; [exact F3|]. split; [|reflexivity].
        left. eexists. split; [reflexivity|]. split; [exact F4|]. intros _. left. lia.
  - assert (A : ~ address_clash w st ipst).
    { intros (A1 & A2 & A3). rewrite A1 in C. subst ipst. cbn [andb st_eqb] in C. rewrite andb_true_r in C. apply negb_false_iff in C. apply st_eqb_eq in C. now elim A2. }
    destruct (Fin w (evolves_refl cf w) (same_refl _)) as (F1 & _ & F3 & F4). cbn [pass_world world_of]. split; [exact F1|]. split; [exact F3|]. split; [|reflexivity].
    left. eexists. split; [reflexivity|]. split; [exact F4|]. intros X. now elim A.
Qed.

Lemma unsafe_ok : forall wc st ipst ro w, hc_strict cf = STRICT_OFF -> let p := continue_unsafe cf wc st ipst ro w in
  evolves w (pass_world p) /\ unexposed (hw_o (pass_world p)) /\ ho_update (hw_o (pass_world p)) = false /\
  ((exists w', p = PDone (HAccept w') /\ (hc_exit cf = true -> unexposed (hw_o w))) \/ (exists w', p = PDone (HExit w') /\ hc_exit cf = true)).
Proof.
  intros wc st ipst ro w O p. unfold p, continue_unsafe. clear p.
  assert (E : evolves w (with_o restricted w)) by apply with_evolves, restricted_tighter.
  destruct (restricted_unexposed (hw_o w)) as [U1 U2].
  destruct (hc_exit cf && cancels (hw_o w)) eqn:C.
  - apply andb_true_iff in C as [C1 C2]. cbn [pass_world world_of]. split; [exact E|]. split; [exact U1|]. split; [exact U2|]. right. eexists. split; [reflexivity|exact C1].
  - destruct (after_ok wc st ipst ro false (with_o restricted w)) as (A1 & A2 & A3 & A4). cbv zeta in *. rewrite (A4 (or_intror O)) in *. cbn [pass_world world_of] in *.
    split; [eapply evolves_trans; eassumption|]. split; [eapply unexposed_tighter; [apply A1|exact U1]|]. split; [reflexivity|].
    left. eexists. split; [reflexivity|]. intros X. rewrite X in C. cbn [andb] in C. now apply cancels_iff.
Qed.

(** Additions to the file. *)
Definition adds (w w' : hworld) (name : list Z) (k : hkey) : Prop := exists es, hw_log w' = hw_log w ++ es /\ In (HAdd name k) es.
Lemma add_new_ok : forall host ip k ipst w,
  let w' := add_new cf en host ip k ipst w in evolves w w' /\ hw_o w' = hw_o w.
Proof.
  intros host ip k ipst w w'. unfold w', add_new.
  destruct (_ && _); [destruct (hc_hash cf); [destruct (en_add en host)|]|]; (split; [|reflexivity]); try apply added_evolves.
  eapply evolves_trans; apply added_evolves.
Qed.

Section Pass.
Variable clobber : bool.
Variable port : Z.
Variable nested : hkey -> hworld -> hres.
Hypothesis Nested : forall k w, evolves w (world_of (nested k w)) /\
  (hc_strict cf <> STRICT_OFF \/ (exists w', nested k w = HRefuse w') -> same_features (hw_o w) (hw_o (world_of (nested k w)))).
Variable hostname host ip : list Z.
Variable hkeys : list hentry.
Variable ipkeys : option (list hentry).
Notation pass := (one_pass cf en clobber port nested hostname host ip hkeys ipkeys).
Notation vouched := (vouched cf en hostname).

(** The call without the port is made. *)
Definition tries : Prop := hc_alias cf = None /\ port <> 0 /\ port <> 22 /\ clobber = false.

(** Why one attempt accepts. *)
Inductive pass_basis (k : hkey) (ro : Z) (w w' : hworld) : Prop :=
| pb_known : vouched hkeys k -> pass_basis k ro w w'
| pb_port : forall w1, unknown hkeys k -> tries -> nested k w = HAccept w1 -> evolves w1 w' -> same_features (hw_o w1) (hw_o w') ->
    ho_update (hw_o w') = false -> pass_basis k ro w w'
| pb_new : unknown hkeys k -> hk_cert k = None -> ro = RDRW -> hc_user_files cf <> 0 -> hc_strict cf <> STRICT_YES ->
    (hc_strict cf = STRICT_ASK -> exists fp, en_fp en k = Some fp /\ asked (Some fp) w w') -> pass_basis k ro w w'
| pb_forced : marked hkeys k \/ (conflicting hkeys k /\ ro <> ROQUIET) -> hc_strict cf = STRICT_OFF -> unexposed (hw_o w') -> ho_update (hw_o w') = false ->
    (hc_exit cf = true -> unexposed (hw_o w)) -> pass_basis k ro w w'.

Definition pass_good (k : hkey) (wc : bool) (st0 : option hstatus) (ro : Z) (w : hworld) (p : pass_out) : Prop :=
  evolves w (pass_world p) /\
  (hc_strict cf <> STRICT_OFF -> same_features (hw_o w) (hw_o (pass_world p))) /\
  (forall w', p = PDone (HAccept w') -> permitted cf k /\ pass_basis k ro w w') /\
  (forall wc' st' ro' w', p = PFail wc' st' ro' w' ->
     same_features (hw_o w) (hw_o w') /\
     ((~ permitted cf k /\ wc' = wc /\ st' = st0 /\ ro' = ro /\ w' = w) \/
      (permitted cf k /\ wc' = sshkey_is_cert k /\ (st' = Some HOST_REVOKED <-> marked hkeys k) /\ (ro' = ro \/ ro = RDRW /\ ro' = RDONLY)))) /\
  (forall r, p = PDone r -> (exists w', r = HAccept w') \/ (exists w', r = HExit w') \/ (exists w', r = HCrash w' /\ exists ik, ipkeys = Some ik /\ marked ik k /\ conflicting hkeys k /\ ho_check_ip (hw_o w) = true) \/ (r = nested k w /\ tries)).
(** One attempt. *)
Lemma pass_ok : forall k wc st ro w, pass_good k wc st ro w (pass k wc st ro w).
Proof.
  intros k wc st0 ro w. unfold one_pass. destruct (accepted_alg cf k) eqn:Al; cbn [negb].
  2:{ cbn [pass_world]. split; [apply evolves_refl|]. split; [intros _; apply same_refl|]. split; [discriminate|]. split; [|discriminate]. intros wc' st' ro' w' [= <- <- <- <-]. split; [apply same_refl|]. left.
      split; [intros X; apply accepted_iff in X; congruence|]. auto. }
  apply accepted_iff in Al. destruct (check_key_in_hostkeys hkeys k) as [st hf] eqn:Ck. apply status_ok in Ck.
  set (ro1 := if (ro =? RDRW) && _ then RDONLY else ro).
  assert (Ro : ro1 = ro \/ (ro = RDRW /\ ro1 = RDONLY)) by (unfold ro1; destruct (ro =? RDRW) eqn:Q; cbn [andb]; [destruct (_ || _)|]; [right; split; [lia|reflexivity]|now left|now left]).
  assert (Ro2 : ro1 = RDRW -> ro = RDRW /\ hc_user_files cf <> 0).
  { unfold ro1. intros X. destruct (ro =? RDRW) eqn:Q; cbn [andb] in X; [|unfold RDRW in *; lia]. split; [lia|]. destruct (hc_user_files cf =? 0) eqn:U; [discriminate|]. lia. }
  clearbody ro1. destruct (match (if sshkey_is_cert k then None else ipkeys) with Some _ => _ | None => _ end) as [[ipst ipf] differ] eqn:Ipe.
  assert (Null : differ = true -> ipst <> HOST_NEW -> ipf = None -> exists ik, ipkeys = Some ik /\ marked ik k).
  { intros D Nn F. destruct (sshkey_is_cert k); [injection Ipe as <- <- <-; discriminate|]. destruct ipkeys as [ik|]; [|injection Ipe as <- <- <-; discriminate].
    destruct (check_key_in_hostkeys ik k) as [s f] eqn:Ci. apply status_ok in Ci. injection Ipe as <- <- _. subst f. exists ik. split; [reflexivity|]. inversion Ci; subst; [now elim Nn|assumption]. }
  clear Ipe.
  assert (Fail : forall w', evolves w w' -> same_features (hw_o w) (hw_o w') ->
    let p := PFail (sshkey_is_cert k) (Some st) ro1 w' in
    pass_good k wc st0 ro w p).
  { intros w' E S q. unfold q. clear q. split; [exact E|]. split; [intros _; exact S|]. split; [discriminate|]. split; [|discriminate].
    intros wc' st' ro' w'' [= <- <- <- <-]. split; [exact S|]. right. split; [exact Al|]. split; [reflexivity|]. split; [|exact Ro].
    split; [intros [= ->]; now inversion Ck|]. intros M. inversion Ck as [e N|U|e (_ & N & _)|]; subst; [contradiction|destruct U; contradiction|contradiction|reflexivity]. }
  assert (AccG : forall w', evolves w w' -> (hc_strict cf <> STRICT_OFF -> same_features (hw_o w) (hw_o w')) -> pass_basis k ro w w' -> pass_good k wc st0 ro w (PDone (HAccept w'))).
  { intros w' E S B. split; [exact E|]. split; [exact S|]. split; [intros w2 [= <-]; now split|]. split; [discriminate|]. intros r [= <-]. left. now exists w'. }
  assert (EndG : forall q, evolves w (world_of q) -> (hc_strict cf <> STRICT_OFF -> same_features (hw_o w) (hw_o (world_of q))) ->
    (exists w', q = HExit w') \/ (exists w', q = HCrash w' /\ exists ik, ipkeys = Some ik /\ marked ik k /\ conflicting hkeys k /\ ho_check_ip (hw_o w) = true) \/ (q = nested k w /\ tries /\ forall w', q <> HAccept w') -> pass_good k wc st0 ro w (PDone q)).
  { intros q E S B. split; [exact E|]. split; [exact S|]. split; [intros w2 [= ->]; destruct B as [[? B]|[(? & B & _)|(_ & _ & B)]]; try discriminate; now elim (B w2)|]. split; [discriminate|]. intros r [= <-].
    right. destruct B as [B|[B|(B & B2 & _)]]; [now left|right; now left|right; right; now split]. }
  (* what follows an accepting branch *)
  assert (After : forall tr w1, evolves w w1 -> same_features (hw_o w) (hw_o w1) ->
    (forall w', evolves w1 w' -> (tr = false -> ho_update (hw_o w') = false) -> same_features (hw_o w1) (hw_o w') -> pass_basis k ro w w') ->
    let p := after_switch cf (sshkey_is_cert k) st ipst ro1 tr w1 in
    pass_good k wc st0 ro w p).
  { intros tr w1 E S B q. destruct (after_ok (sshkey_is_cert k) st ipst ro1 tr w1) as (A1 & A2 & A3 & _). fold q in A1, A2, A3.
    assert (Eq : evolves w (pass_world q)) by (eapply evolves_trans; eassumption). assert (Sq : same_features (hw_o w) (hw_o (pass_world q))) by (eapply same_trans; eassumption).
    destruct A3 as [(w' & Q & Up & _)|(w' & Q & _)]; rewrite Q in *; cbn [pass_world world_of] in *.
    - apply AccG; [exact Eq|intros _; exact Sq|]. now apply B.
    - apply Fail; assumption. }
  inversion Ck as [e N O I|U|e C I|M]; subst st hf; cbv iota in Fail, After |- *.
  - (* known *)
    destruct (sshkey_is_cert k && negb _) eqn:Ce; [apply Fail; [apply evolves_refl|apply same_refl]|].
    assert (V : vouched hkeys k).
    { split; [exact N|]. split; [exact O|]. unfold sshkey_is_cert in Ce. destruct (hk_cert k); [right|now left]. cbn [is_some andb] in Ce. now apply negb_false_iff in Ce. }
    assert (Up : forall (b : bool) w1, evolves w w1 -> same_features (hw_o w) (hw_o w1) ->
      evolves w (if b then with_o no_update w1 else w1) /\ same_features (hw_o w) (hw_o (if b then with_o no_update w1 else w1))).
    { intros b w1 E S. destruct b; [|now split]. split; [eapply evolves_trans; [exact E|apply with_evolves, no_update_tighter]|]. eapply same_trans; [exact S|]. unfold same_features, with_o, no_update. cbn. tauto. }
    destruct (Up (sshkey_is_cert k) w (evolves_refl cf w) (same_refl _)) as [E1 S1]. set (w1 := if sshkey_is_cert k then _ else _) in *. clearbody w1.
    cbv zeta. set (sysb := en_system en e || _). destruct (Up sysb w1 E1 S1) as [E2 S2]. set (w2 := if sysb then _ else _) in *. clearbody w2 sysb.
    destruct (Up (negb (he_note e =? 0)) w2 E2 S2) as [E3 S3]. replace (if he_note e =? 0 then w2 else with_o no_update w2) with (if negb (he_note e =? 0) then with_o no_update w2 else w2) by (destruct (he_note e =? 0); reflexivity).
    set (w3 := if negb (he_note e =? 0) then _ else _) in *. clearbody w3.
    assert (W4 : exists w4, (if ho_check_ip (hw_o w3) && st_eqb ipst HOST_NEW then if negb (ro1 =? RDRW) || sshkey_is_cert k then w3 else added ip k w3 else w3) = w4 /\ evolves w w4 /\ same_features (hw_o w) (hw_o w4)).
    { destruct (ho_check_ip (hw_o w3) && st_eqb ipst HOST_NEW); [destruct (negb (ro1 =? RDRW) || sshkey_is_cert k)|]; eexists; (split; [reflexivity|]); try (now split). split; [eapply evolves_trans; [exact E3|apply added_evolves]|exact S3]. }
    destruct W4 as (w4 & -> & E4 & S4). apply After; [exact E4|exact S4|]. intros w' _ _ _. now apply pb_known.
  - (* new *)
    set (tp := negb (is_some (hc_alias cf)) && negb (port =? 0) && negb (port =? SSH_DEFAULT_PORT) && negb clobber).
    assert (Tp : tp = true -> tries).
    { unfold tp, tries, SSH_DEFAULT_PORT. intros X. destruct (hc_alias cf); [discriminate|]. cbn [is_some negb andb] in X. destruct clobber; [rewrite andb_false_r in X; discriminate|].
      split; [reflexivity|]. split; [lia|]. split; [lia|reflexivity]. }
    clearbody tp.
    assert (Rest : forall w1, evolves w w1 -> same_features (hw_o w) (hw_o w1) ->
      let p := (if negb (ro1 =? RDRW) || sshkey_is_cert k then PFail (sshkey_is_cert k) (Some HOST_NEW) ro1 w1
        else if hc_strict cf =? STRICT_YES then PFail (sshkey_is_cert k) (Some HOST_NEW) ro1 w1
        else if hc_strict cf =? STRICT_ASK then
          match en_fp en k with
          | None => PDone (HExit w1)
          | Some fp => let '(yes, w2) := confirm (hc_batch cf) (Some fp) w1 in
              if negb yes then PFail (sshkey_is_cert k) (Some HOST_NEW) ro1 w2
              else after_switch cf (sshkey_is_cert k) HOST_NEW ipst ro1 true (add_new cf en host ip k ipst w2)
          end
        else after_switch cf (sshkey_is_cert k) HOST_NEW ipst ro1 false (add_new cf en host ip k ipst w1)) in
      pass_good k wc st0 ro w p).
    { intros w1 E S. destruct (negb (ro1 =? RDRW) || sshkey_is_cert k) eqn:R1; [apply Fail; assumption|].
      apply orb_false_iff in R1 as [R1 R2]. destruct (Ro2 ltac:(lia)) as [Rr Ru].
      assert (Cn : hk_cert k = None) by (unfold sshkey_is_cert in R2; destruct (hk_cert k); [discriminate|reflexivity]).
      destruct (hc_strict cf =? STRICT_YES) eqn:Y; [apply Fail; assumption|]. destruct (hc_strict cf =? STRICT_ASK) eqn:K.
      - destruct (en_fp en k) as [fp|] eqn:Fp.
        2:{ apply EndG; [exact E|intros _; exact S|]. left. now exists w1. }
        destruct (confirm (hc_batch cf) (Some fp) w1) as [yes w2] eqn:Cf. destruct (confirm_evolves cf _ _ _ _ Cf) as (E2 & S2 & As).
        assert (E3 : evolves w w2) by (eapply evolves_trans; eassumption). assert (S3 : same_features (hw_o w) (hw_o w2)) by (rewrite S2; exact S).
        destruct yes; cbn [negb]; [|apply Fail; assumption].
        destruct (add_new_ok host ip k ipst w2) as [E4 S4]. cbv zeta in E4, S4.
        apply After; [eapply evolves_trans; eassumption|rewrite S4; exact S3|]. intros w' E5 _ _. apply pb_new; try assumption; [lia|].
        intros _. exists fp. split; [exact Fp|]. eapply asked_earlier; [exact E|]. eapply asked_later; [now apply As|]. eapply evolves_trans; eassumption.
      - destruct (add_new_ok host ip k ipst w1) as [E4 S4]. cbv zeta in E4, S4.
        apply After; [eapply evolves_trans; eassumption|rewrite S4; exact S|]. intros w' E5 _ _. apply pb_new; try assumption; lia. }
    destruct tp.
    2:{ apply Rest; [apply evolves_refl|apply same_refl]. }
    specialize (Tp eq_refl). destruct (Nested k w) as [En Sn]. destruct (nested k w) as [w1|w1|w1|w1|w1] eqn:Nk; cbn [world_of] in En, Sn; cbv iota.
    + destruct (after_ok (sshkey_is_cert k) HOST_NEW ipst ro1 false w1) as (A1 & A2 & A3 & _). set (q := after_switch _ _ _ _ _ _ _) in *.
      assert (Eq : evolves w (pass_world q)) by (eapply evolves_trans; eassumption).
      destruct A3 as [(w' & Q & Upd & _)|(w' & Q & Cl)]; rewrite Q in *; cbn [pass_world world_of] in *.
      * apply AccG; [exact Eq| |eapply pb_port; eauto]. intros X. eapply same_trans; [apply Sn; now left|exact A2].
      * apply Fail; [exact Eq|]. eapply same_trans; [apply Sn; left; apply Cl|exact A2].
    + apply Rest; [exact En|]. apply Sn. right. now exists w1.
    + apply EndG; [exact En|intros X; apply Sn; now left|]. left. now exists w1.
    + apply EndG; [exact En|intros X; apply Sn; now left|]. right. right. split; [now symmetry|]. split; [exact Tp|discriminate].
    + apply EndG; [exact En|intros X; apply Sn; now left|]. right. right. split; [now symmetry|]. split; [exact Tp|discriminate].
  - (* another key *)
    assert (Cn : sshkey_is_cert k = false) by (destruct C as (C & _); unfold sshkey_is_cert; now rewrite C). rewrite Cn in *.
    destruct (ro1 =? ROQUIET) eqn:Rq; [apply Fail; [apply evolves_refl|apply same_refl]|].
    destruct (_ && negb (is_some ipf)) eqn:Cr.
    { apply EndG; [apply evolves_refl|intros _; apply same_refl|]. right. left. exists w. split; [reflexivity|].
      apply andb_true_iff in Cr as [Cr F]. apply andb_true_iff in Cr as [Cr Nn]. apply andb_true_iff in Cr as [Ci D].
      destruct Null as (ik & Ik & M); [exact D|intros ->; discriminate|destruct ipf; [discriminate|reflexivity]|]. exists ik. auto. }
    destruct (negb (hc_strict cf =? STRICT_OFF)) eqn:O; [apply Fail; [apply evolves_refl|apply same_refl]|].
    destruct (unsafe_ok false HOST_CHANGED ipst ro1 w ltac:(lia)) as (A1 & A2 & A3 & A4). cbv zeta in *.
    destruct A4 as [(w' & Q & X)|(w' & Q & X)]; rewrite Q in *; cbn [pass_world world_of] in *.
    + apply AccG; [exact A1|intros Z; exfalso; lia|]. apply pb_forced; auto; [|lia].
      right. split; [exact C|]. destruct Ro as [-> |[-> _]]; [lia|discriminate].
    + apply EndG; [exact A1|intros Z; exfalso; lia|]. left. now exists w'.
  - (* revoked *)
    destruct (negb (hc_strict cf =? STRICT_OFF)) eqn:O; [apply Fail; [apply evolves_refl|apply same_refl]|].
    destruct (unsafe_ok (sshkey_is_cert k) HOST_REVOKED ipst ro1 w ltac:(lia)) as (A1 & A2 & A3 & A4). cbv zeta in *.
    destruct A4 as [(w' & Q & X)|(w' & Q & X)]; rewrite Q in *; cbn [pass_world world_of] in *.
    + apply AccG; [exact A1|intros Z; exfalso; lia|]. apply pb_forced; auto; lia.
    + apply EndG; [exact A1|intros Z; exfalso; lia|]. left. now exists w'.
Qed.
End Pass.
End P.
