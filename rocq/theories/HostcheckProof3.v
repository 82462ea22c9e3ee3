(** Proofs about the decision on a host key: the whole check. *)
From Coq Require Import String.
From Verif Require Import Base Text MatchModel HostfileModel HostfileSpec HostfileProof2 HostcheckModel HostcheckSpec HostcheckProof HostcheckProof2.
Local Open Scope Z_scope.

(** ** Lines added *)
Definition adds_only (w w' : hworld) (P : list Z -> hkey -> Prop) : Prop :=
  exists es, hw_log w' = hw_log w ++ es /\ forall n j, In (HAdd n j) es -> P n j.
Lemma adds_refl : forall w P, adds_only w w P.
Proof. intros w P. exists []. split; [now rewrite app_nil_r|intros n j []]. Qed.
Lemma adds_trans : forall a b c P, adds_only a b P -> adds_only b c P -> adds_only a c P.
Proof.
  intros a b c P (e1 & L1 & A1) (e2 & L2 & A2). exists (e1 ++ e2). split; [now rewrite L2, L1, app_assoc|]. intros n j I. apply in_app_or in I. destruct I; auto.
Qed.
Lemma adds_weaken : forall a b (P Q : list Z -> hkey -> Prop), (forall n j, P n j -> Q n j) -> adds_only a b P -> adds_only a b Q.
Proof. intros a b P Q PQ (e & L & A). exists e. split; [exact L|]. auto. Qed.
Lemma adds_with : forall a b f P, adds_only a b P -> adds_only a (with_o f b) P.
Proof. intros a b f P (e & L & A). now exists e. Qed.
Lemma adds_added : forall w n k (P : list Z -> hkey -> Prop), P n k -> adds_only w (added n k w) P.
Proof. intros w n k P H. exists [HAdd n k]. split; [reflexivity|]. intros n' j [I|[]]. now injection I as <- <-. Qed.
Lemma adds_confirm : forall b fp w y w' P, confirm b fp w = (y, w') -> adds_only w w' P.
Proof.
  intros b fp w y w' P H. unfold confirm in H. destruct b; [|destruct (confirm_loop fp (hw_in w))]; injection H as <- <-; (eexists; split; [reflexivity|]); intros n j [I|[]]; discriminate.
Qed.

Section P.
Variable cf : hconf.
Variable en : henv.
Notation evolves := (evolves cf).
Notation asked := (asked cf).

Lemma adds_after : forall wc st ipst ro tr w P, adds_only w (pass_world (after_switch cf wc st ipst ro tr w)) P.
Proof.
  intros wc st ipst ro tr w P. unfold after_switch.
  assert (F : forall w1, adds_only w w1 P -> adds_only w (if tr then w1 else with_o no_update w1) P) by (intros w1 A; destruct tr; [exact A|now apply adds_with]).
  match goal with |- context [if ?b then _ else _] => destruct b end.
  - destruct (hc_strict cf =? STRICT_ASK).
    + destruct (confirm (hc_batch cf) None w) as [y w1] eqn:C. apply adds_confirm with (P := P) in C. destruct y; cbn [pass_world world_of]; [now apply F|exact C].
    + destruct (negb (hc_strict cf =? STRICT_OFF)); cbn [pass_world world_of]; [apply adds_refl|]. apply F, adds_refl.
  - cbn [pass_world world_of]. apply F, adds_refl.
Qed.

Section Pass.
Variable clobber : bool.
Variable port : Z.
Variable nested : hkey -> hworld -> hres.
Hypothesis Nested : forall k w, evolves w (world_of (nested k w)) /\
  (hc_strict cf <> STRICT_OFF \/ (exists w', nested k w = HRefuse w') -> same_features (hw_o w) (hw_o (world_of (nested k w)))).
Hypothesis NestedAdds : forall k w, adds_only w (world_of (nested k w)) (fun _ _ => False).
Variable hostname host ip : list Z.
Variable hkeys : list hentry.
Variable ipkeys : option (list hentry).
Notation pass := (one_pass cf en clobber port nested hostname host ip hkeys ipkeys).
Notation vouched := (vouched cf en hostname).

(** What may be added. *)
Definition addable (k : hkey) (ro : Z) (w w' : hworld) (n : list Z) (j : hkey) : Prop :=
  j = k /\ ro = RDRW /\ hk_cert k = None /\ hc_user_files cf <> 0 /\ permitted cf k /\
  ((n = ip /\ ho_check_ip (hw_o w) = true /\ vouched hkeys k) \/
   (unknown hkeys k /\ hc_strict cf <> STRICT_YES /\ (hc_strict cf = STRICT_ASK -> exists fp, en_fp en k = Some fp /\ asked (Some fp) w w') /\
    (n = host \/ (ho_check_ip (hw_o w) = true /\ (n = ip \/ n = ztake 999 (host ++ bs "," ++ ip)))))).

Lemma evolves_ip : forall w w', evolves w w' -> ho_check_ip (hw_o w') = true -> ho_check_ip (hw_o w) = true.
Proof. intros w w' (_ & _ & T & _). exact T. Qed.
Lemma add_new_evolves : forall k ipst w, evolves w (add_new cf en host ip k ipst w).
Proof.
  intros k ipst w. unfold add_new. destruct (ho_check_ip (hw_o w) && st_eqb ipst HOST_NEW); [destruct (hc_hash cf); [destruct (en_add en host)|]|]; try apply added_evolves.
  eapply evolves_trans; apply added_evolves.
Qed.
Lemma adds_add_new : forall k ipst w (P : list Z -> hkey -> Prop), P host k ->
  (ho_check_ip (hw_o w) = true -> P ip k /\ P (ztake 999 (host ++ bs "," ++ ip)) k) -> adds_only w (add_new cf en host ip k ipst w) P.
Proof.
  intros k ipst w P H1 H2. unfold add_new. destruct (ho_check_ip (hw_o w) && st_eqb ipst HOST_NEW) eqn:C.
  - apply andb_true_iff in C as [C _]. destruct (H2 C). destruct (hc_hash cf).
    + destruct (en_add en host); [eapply adds_trans; apply adds_added; assumption|now apply adds_added].
    + now apply adds_added.
  - now apply adds_added.
Qed.

Lemma pass_adds : forall k wc st ro w, let p := pass k wc st ro w in adds_only w (pass_world p) (addable k ro w (pass_world p)).
Proof.
  intros k wc st0 ro w p. unfold p, one_pass. clear p. destruct (accepted_alg cf k) eqn:Al; cbn [negb]; [|apply adds_refl].
  apply accepted_iff in Al. destruct (check_key_in_hostkeys hkeys k) as [st hf] eqn:Ck. apply status_ok in Ck.
  set (ro1 := if (ro =? RDRW) && _ then RDONLY else ro).
  assert (Ro2 : ro1 = RDRW -> ro = RDRW /\ hc_user_files cf <> 0).
  { unfold ro1. intros X. destruct (ro =? RDRW) eqn:Q; cbn [andb] in X; [|unfold RDRW in *; lia]. split; [lia|]. destruct (hc_user_files cf =? 0) eqn:U; [discriminate|]. lia. }
  clearbody ro1. destruct (match (if sshkey_is_cert k then None else ipkeys) with Some _ => _ | None => _ end) as [[ipst ipf] differ].
  inversion Ck as [e N O I|U|e C I|M]; subst st hf; cbv iota.
  - destruct (sshkey_is_cert k && negb _) eqn:Ce; [apply adds_refl|]. cbv zeta.
    set (w1 := if sshkey_is_cert k then _ else _). assert (A1 : hw_log w1 = hw_log w /\ evolves w w1) by (unfold w1; destruct (sshkey_is_cert k); split; try reflexivity; [apply with_evolves, no_update_tighter|apply evolves_refl]). clearbody w1.
    set (sysb := en_system en e || _). set (w2 := if sysb then _ else _).
    assert (A2 : hw_log w2 = hw_log w /\ evolves w w2).
    { destruct A1 as [A1 E1]. unfold w2. destruct sysb; split; try exact A1; [|exact E1]. eapply evolves_trans; [exact E1|apply with_evolves, no_update_tighter]. }
    clearbody w2 sysb. set (w3 := if he_note e =? 0 then _ else _).
    assert (A3 : hw_log w3 = hw_log w /\ evolves w w3).
    { destruct A2 as [A2 E2]. unfold w3. destruct (he_note e =? 0); split; try exact A2; [exact E2|]. eapply evolves_trans; [exact E2|apply with_evolves, no_update_tighter]. }
    clearbody w3. destruct A3 as [A3 E3].
    set (P := addable k ro w _). 
    eapply adds_trans; [|apply adds_after]. destruct (ho_check_ip (hw_o w3) && st_eqb ipst HOST_NEW) eqn:Ip.
    + destruct (negb (ro1 =? RDRW) || sshkey_is_cert k) eqn:R1; [exists []; rewrite app_nil_r; split; [exact A3|intros n j []]|].
      exists [HAdd ip k]. split; [cbn; now rewrite A3|]. intros n j [X|[]]. injection X as <- <-.
      apply orb_false_iff in R1 as [R1 R2]. destruct (Ro2 ltac:(lia)) as [Rr Ru]. apply andb_true_iff in Ip as [Ip _].
      assert (Cn : hk_cert k = None) by (unfold sshkey_is_cert in R2; destruct (hk_cert k); [discriminate|reflexivity]).
      unfold P, addable. split; [reflexivity|]. split; [exact Rr|]. split; [exact Cn|]. split; [exact Ru|]. split; [exact Al|]. left. split; [reflexivity|]. split; [eapply evolves_ip; eassumption|].
      split; [exact N|]. split; [exact O|now left].
    + exists []; rewrite app_nil_r; split; [exact A3|intros n j []].
  - set (tp := negb (is_some (hc_alias cf)) && negb (port =? 0) && negb (port =? SSH_DEFAULT_PORT) && negb clobber). clearbody tp.
    assert (Sub : forall a b (Q : list Z -> hkey -> Prop), adds_only a b (fun _ _ => False) -> adds_only a b Q) by (intros a b Q; apply adds_weaken; intros _ _ []).
    assert (Rest : forall w1, adds_only w w1 (fun _ _ => False) -> evolves w w1 ->
      let p := (if negb (ro1 =? RDRW) || sshkey_is_cert k then PFail (sshkey_is_cert k) (Some HOST_NEW) ro1 w1
        else if hc_strict cf =? STRICT_YES then PFail (sshkey_is_cert k) (Some HOST_NEW) ro1 w1
        else if hc_strict cf =? STRICT_ASK then
          match en_fp en k with
          | None => PDone (HExit w1)
          | Some fp => let '(yes, w2) := confirm (hc_batch cf) (Some fp) w1 in
              if negb yes then PFail (sshkey_is_cert k) (Some HOST_NEW) ro1 w2
              else after_switch cf (sshkey_is_cert k) HOST_NEW ipst ro1 true (add_new cf en host ip k ipst w2)
          end
        else after_switch cf (sshkey_is_cert k) HOST_NEW ipst ro1 false (add_new cf en host ip k ipst w1)) in
      adds_only w (pass_world p) (addable k ro w (pass_world p))).
    { intros w1 A E. destruct (negb (ro1 =? RDRW) || sshkey_is_cert k) eqn:R1; [apply Sub, A|].
      apply orb_false_iff in R1 as [R1 R2]. destruct (Ro2 ltac:(lia)) as [Rr Ru].
      assert (Cn : hk_cert k = None) by (unfold sshkey_is_cert in R2; destruct (hk_cert k); [discriminate|reflexivity]).
      destruct (hc_strict cf =? STRICT_YES) eqn:Y; [apply Sub, A|]. 
      assert (Go : forall tr w2, adds_only w w2 (fun _ _ => False) -> evolves w w2 ->
        (hc_strict cf = STRICT_ASK -> exists fp, en_fp en k = Some fp /\ asked (Some fp) w w2) ->
        let p := after_switch cf (sshkey_is_cert k) HOST_NEW ipst ro1 tr (add_new cf en host ip k ipst w2) in
        adds_only w (pass_world p) (addable k ro w (pass_world p))).
      { intros tr w2 A2 E2 As q. set (P := addable k ro w (pass_world q)).
        destruct (after_ok cf (sshkey_is_cert k) HOST_NEW ipst ro1 tr (add_new cf en host ip k ipst w2)) as (E3 & _). fold q in E3.
        assert (As' : hc_strict cf = STRICT_ASK -> exists fp, en_fp en k = Some fp /\ asked (Some fp) w (pass_world q)).
        { intros K. destruct (As K) as (fp & Fp & Q). exists fp. split; [exact Fp|]. eapply asked_later; [exact Q|]. eapply evolves_trans; [|exact E3]. apply add_new_evolves. }
        eapply adds_trans; [apply Sub, A2|]. eapply adds_trans; [|apply adds_after]. apply adds_add_new.
        - split; [reflexivity|]. repeat (split; [assumption|]). right. split; [exact U|]. split; [lia|]. split; [exact As'|]. now left.
        - intros Ip. apply (evolves_ip _ _ E2) in Ip.
          split; (split; [reflexivity|]); repeat (split; [assumption|]); right; (split; [exact U|]); (split; [lia|]); (split; [exact As'|]); right; auto. }
      destruct (hc_strict cf =? STRICT_ASK) eqn:K.
      - destruct (en_fp en k) as [fp|] eqn:Fp; [|apply Sub, A].
        destruct (confirm (hc_batch cf) (Some fp) w1) as [yes w2] eqn:Cf. destruct (confirm_evolves cf _ _ _ _ Cf) as (E2 & _ & As). apply adds_confirm with (P := fun _ _ => False) in Cf.
        assert (A2 : adds_only w w2 (fun _ _ => False)) by (eapply adds_trans; eassumption).
        destruct yes; cbn [negb]; [|apply Sub, A2]. apply Go; [exact A2|eapply evolves_trans; eassumption|]. intros _. exists fp. split; [reflexivity|]. eapply asked_earlier; [exact E|now apply As].
      - apply Go; [exact A|exact E|]. intros X. exfalso. lia. }
    destruct tp; [|apply Rest; [apply adds_refl|apply evolves_refl]].
    pose proof (NestedAdds k w) as Na. destruct (Nested k w) as [Ne _]. destruct (nested k w) as [w1|w1|w1|w1|w1]; cbn [world_of] in Na, Ne; cbv iota.
    + eapply adds_trans; [apply Sub, Na|apply adds_after].
    + now apply Rest.
    + apply Sub, Na.
    + apply Sub, Na.
    + apply Sub, Na.
  - destruct (sshkey_is_cert k); [apply adds_refl|]. destruct (ro1 =? ROQUIET); [apply adds_refl|]. destruct (_ && negb (is_some ipf)); [apply adds_refl|].
    destruct (negb (hc_strict cf =? STRICT_OFF)); [apply adds_refl|]. unfold continue_unsafe. destruct (hc_exit cf && cancels (hw_o w)); [apply (adds_with w w), adds_refl|].
    eapply adds_trans; [apply (adds_with w w restricted), adds_refl|apply adds_after].
  - destruct (negb (hc_strict cf =? STRICT_OFF)); [apply adds_refl|]. unfold continue_unsafe. destruct (hc_exit cf && cancels (hw_o w)); [apply (adds_with w w), adds_refl|].
    eapply adds_trans; [apply (adds_with w w restricted), adds_refl|apply adds_after].
Qed.

(** Another key is listed for the address. *)
Lemma pass_address : forall k wc st ro w w' ik, pass k wc st ro w = PDone (HAccept w') -> hk_cert k = None -> ipkeys = Some ik -> conflicting ik k ->
  ho_check_ip (hw_o w') = true -> hc_strict cf = STRICT_OFF \/ (hc_strict cf = STRICT_ASK /\ asked None w w').
Proof.
  intros k wc st0 ro w w' ik H Cn Ik Cl Ip. destruct (Z.eq_dec (hc_strict cf) STRICT_OFF) as [|Of]; [now left|].
  revert H. unfold one_pass. destruct (accepted_alg cf k); cbn [negb]; [|discriminate].
  destruct (check_key_in_hostkeys hkeys k) as [st hf] eqn:Ck. apply status_ok in Ck.
  set (ro1 := if (ro =? RDRW) && _ then RDONLY else ro). clearbody ro1.
  assert (Cf : sshkey_is_cert k = false) by (unfold sshkey_is_cert; now rewrite Cn). rewrite Cf, Ik.
  destruct (check_key_in_hostkeys ik k) as [ipst ipf] eqn:Ci. apply status_ok in Ci.
  assert (Is : ipst = HOST_CHANGED).
  { destruct Cl as (_ & N1 & N2 & S). inversion Ci as [e N O I|U|e C I|M]; subst; try reflexivity; try contradiction. destruct U as (_ & _ & U). now elim (U Cn). }
  set (differ := st_eqb st HOST_CHANGED && _). clearbody differ.
  assert (After : forall tr w1, evolves w w1 -> st <> HOST_CHANGED -> after_switch cf false st ipst ro1 tr w1 = PDone (HAccept w') -> hc_strict cf = STRICT_OFF \/ (hc_strict cf = STRICT_ASK /\ asked None w w')).
  { intros tr w1 E Ns H. destruct (after_ok cf false st ipst ro1 tr w1) as (A1 & _ & A3 & _). cbv zeta in *. rewrite H in A1, A3. cbn [pass_world world_of] in A1.
    destruct A3 as [(w2 & Q & _ & R)|(w2 & Q & _)]; [|discriminate]. injection Q as <-.
    destruct R as [R|[R1 R2]]; [split; [eapply evolves_ip; eassumption|now split]|now left|]. right. split; [exact R1|]. eapply asked_earlier; eassumption. }
  inversion Ck as [e N O I|U|e C I|M]; subst st hf; cbv iota.
  - cbn [andb]. cbv zeta. set (sysb := en_system en e || _). set (w2 := if sysb then _ else _).
    assert (E2 : evolves w w2) by (unfold w2; destruct sysb; [apply with_evolves, no_update_tighter|apply evolves_refl]).
    clearbody w2 sysb. set (w3 := if he_note e =? 0 then _ else _).
    assert (E3 : evolves w w3) by (unfold w3; destruct (he_note e =? 0); [exact E2|eapply evolves_trans; [exact E2|apply with_evolves, no_update_tighter]]).
    clearbody w3. apply After; [|discriminate]. destruct (ho_check_ip (hw_o w3) && st_eqb ipst HOST_NEW); [|exact E3]. destruct (negb (ro1 =? RDRW) || false); [exact E3|]. eapply evolves_trans; [exact E3|apply added_evolves].
  - set (tp := negb (is_some (hc_alias cf)) && negb (port =? 0) && negb (port =? SSH_DEFAULT_PORT) && negb clobber). clearbody tp.
    assert (Rest : forall w1, evolves w w1 ->
      (if negb (ro1 =? RDRW) || false then PFail false (Some HOST_NEW) ro1 w1
        else if hc_strict cf =? STRICT_YES then PFail false (Some HOST_NEW) ro1 w1
        else if hc_strict cf =? STRICT_ASK then
          match en_fp en k with
          | None => PDone (HExit w1)
          | Some fp => let '(yes, w2) := confirm (hc_batch cf) (Some fp) w1 in
              if negb yes then PFail false (Some HOST_NEW) ro1 w2
              else after_switch cf false HOST_NEW ipst ro1 true (add_new cf en host ip k ipst w2)
          end
        else after_switch cf false HOST_NEW ipst ro1 false (add_new cf en host ip k ipst w1)) = PDone (HAccept w') -> hc_strict cf = STRICT_OFF \/ (hc_strict cf = STRICT_ASK /\ asked None w w')).
    { intros w1 E. destruct (negb (ro1 =? RDRW) || false); [discriminate|]. destruct (hc_strict cf =? STRICT_YES); [discriminate|]. destruct (hc_strict cf =? STRICT_ASK).
      - destruct (en_fp en k) as [fp|]; [|discriminate]. destruct (confirm (hc_batch cf) (Some fp) w1) as [yes w2] eqn:Cq. destruct (confirm_evolves cf _ _ _ _ Cq) as (E2 & _).
        destruct yes; cbn [negb]; [|discriminate]. apply After; [|discriminate]. eapply evolves_trans; [exact E|]. eapply evolves_trans; [exact E2|apply add_new_evolves].
      - apply After; [|discriminate]. eapply evolves_trans; [exact E|apply add_new_evolves]. }
    destruct tp; [|apply Rest, evolves_refl]. destruct (Nested k w) as [Ne _]. destruct (nested k w) as [w1|w1|w1|w1|w1]; cbn [world_of] in Ne; cbv iota; try discriminate.
    + apply After; [exact Ne|discriminate].
    + now apply Rest.
  - destruct (ro1 =? ROQUIET); [discriminate|]. destruct (_ && negb (is_some ipf)); [discriminate|].
    destruct (negb (hc_strict cf =? STRICT_OFF)) eqn:X; [discriminate|]. exfalso. lia.
  - destruct (negb (hc_strict cf =? STRICT_OFF)) eqn:X; [discriminate|]. exfalso. lia.
Qed.

(** A key that is vouched for. *)
Lemma pass_complete : forall k wc st ro w, permitted cf k -> vouched hkeys k ->
  (forall ik, ipkeys = Some ik -> hk_cert k = None -> ~ conflicting ik k) -> exists w', pass k wc st ro w = PDone (HAccept w').
Proof.
  intros k wc st0 ro w Al (N & O & Ce) Ni. unfold one_pass. apply accepted_iff in Al. rewrite Al. cbn [negb].
  destruct (check_key_in_hostkeys hkeys k) as [st hf] eqn:Ck. apply status_ok in Ck.
  set (ro1 := if (ro =? RDRW) && _ then RDONLY else ro). clearbody ro1.
  destruct (match (if sshkey_is_cert k then None else ipkeys) with Some _ => _ | None => _ end) as [[ipst ipf] differ] eqn:Ie.
  inversion Ck as [e N' O' I|U|e C I|M]; subst st hf; try contradiction; try (destruct U as (_ & U & _); contradiction); try (destruct C as (_ & _ & C & _); contradiction).
  assert (Ipst : ipst <> HOST_CHANGED).
  { intros ->. destruct (sshkey_is_cert k) eqn:Cc; [injection Ie; discriminate|]. destruct ipkeys as [ik|]; [|injection Ie; discriminate].
    destruct (check_key_in_hostkeys ik k) as [s f] eqn:Ci. apply status_ok in Ci. injection Ie as -> _ _. inversion Ci as [| |e' C' I'|]; subst.
    apply (Ni ik eq_refl); [|exact C']. apply C'. }
  replace (sshkey_is_cert k && negb _) with false.
  2:{ symmetry. unfold sshkey_is_cert. destruct (hk_cert k); [|reflexivity]. cbn [is_some andb]. destruct Ce as [Ce|Ce]; [discriminate|]. now rewrite Ce. }
  cbv zeta. match goal with |- context [after_switch cf ?a ?b ?c ?d ?e ?f] => destruct (after_ok cf a b c d e f) as (_ & _ & _ & Q) end.
  rewrite Q; [eexists; reflexivity|]. left. intros (_ & _ & X). contradiction.
Qed.
End Pass.
End P.
