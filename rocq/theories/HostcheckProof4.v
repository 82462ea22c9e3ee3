(** Proofs about the decision on a host key: both attempts, with and without
    the port. *)
From Coq Require Import String.
From Verif Require Import Base Text MatchModel HostfileModel HostfileSpec HostfileProof2 HostcheckModel HostcheckSpec HostcheckProof HostcheckProof2 HostcheckProof3.
Local Open Scope Z_scope.

Section P.
Variable cf : hconf.
Variable en : henv.
Hypothesis Plain : forall k j, en_plain en k = Some j -> hk_cert j = None.
Notation evolves := (evolves cf).
Notation asked := (asked cf).

Section Check.
Variable clobber : bool.
Variable port : Z.
Variable nested : hkey -> hworld -> hres.
Hypothesis Nested : forall k w, evolves w (world_of (nested k w)) /\
  (hc_strict cf <> STRICT_OFF \/ (exists w', nested k w = HRefuse w') -> same_features (hw_o w) (hw_o (world_of (nested k w)))).
Hypothesis NestedAdds : forall k w, adds_only w (world_of (nested k w)) (fun _ _ => False).
Variable hostname : list Z.
Notation shown := (shown cf en).

Section Passes.
Variable host ip : list Z.
Variable hkeys : list hentry.
Variable ipkeys : option (list hentry).
Notation pass := (one_pass cf en clobber port nested hostname host ip hkeys ipkeys).

Lemma plain_cert : forall k, sshkey_is_cert k = false <-> hk_cert k = None.
Proof. intros k. unfold sshkey_is_cert. destruct (hk_cert k); cbn [is_some]; split; congruence. Qed.

(** Where the result of the attempts comes from. *)
Lemma passes_shape : forall k ro w, let r := passes en pass k ro w in
  (* the first attempt *)
  (pass k (sshkey_is_cert k) None ro w = PDone r) \/
  (exists wc st ro' w', pass k (sshkey_is_cert k) None ro w = PFail wc st ro' w' /\ (r = HRefuse w' \/ r = HExit w')) \/
  (* the second *)
  (exists wc st ro' w' j, pass k (sshkey_is_cert k) None ro w = PFail wc st ro' w' /\ shown hkeys k j /\ j <> k /\ hk_cert j = None /\ same_features (hw_o w) (hw_o w') /\ evolves w w' /\
     (ro' = ro \/ (ro = RDRW /\ ro' = RDONLY)) /\
     (pass j wc st ro' w' = PDone r \/
      exists wc2 st2 ro2 w2, pass j wc st ro' w' = PFail wc2 st2 ro2 w2 /\ (r = HRefuse w2 \/ (r = HExit w2 /\ ~ permitted cf j)))).
Proof.
  intros k ro w r. unfold r, passes. clear r.
  destruct (pass_ok cf en clobber port nested Nested hostname host ip hkeys ipkeys k (sshkey_is_cert k) None ro w) as (E1 & S1 & _ & F1 & _).
  destruct (pass k (sshkey_is_cert k) None ro w) as [r|wc st ro' w'] eqn:P1; [now left|]. right. cbn [pass_world] in *. destruct (F1 _ _ _ _ eq_refl) as [S D]. clear F1.
  destruct (wc && not_revoked st) eqn:G; [|left; do 4 eexists; split; [reflexivity|now left]].
  apply andb_true_iff in G as [G1 G2]. unfold downgrade. destruct (sshkey_is_cert k) eqn:Ce; [|left; do 4 eexists; split; [reflexivity|now right]].
  destruct (en_plain en k) as [j|] eqn:Pl; [|left; do 4 eexists; split; [reflexivity|now right]]. right.
  assert (Cj : hk_cert j = None) by (eapply Plain; exact Pl).
  assert (Ck : hk_cert k <> None) by (intros X; apply plain_cert in X; congruence).
  exists wc, st, ro', w', j. split; [reflexivity|]. split.
  { right. split; [exact Ck|]. split; [exact Pl|]. intros [Pe M]. destruct D as [(Np & _)|(_ & _ & Rv & _)]; [contradiction|]. apply Rv in M. subst st. discriminate. }
  split; [intros ->; contradiction|]. split; [exact Cj|]. split; [exact S|]. split; [exact E1|]. split; [destruct D as [(_ & _ & _ & -> & _)|(_ & _ & _ & D)]; [now left|exact D]|].
  destruct (pass_ok cf en clobber port nested Nested hostname host ip hkeys ipkeys j wc st ro' w') as (_ & _ & _ & F2 & _).
  destruct (pass j wc st ro' w') as [r2|wc2 st2 ro2 w2] eqn:P2; [now left|]. right. do 4 eexists. split; [reflexivity|].
  destruct (F2 _ _ _ _ eq_refl) as [_ D2]. destruct (wc2 && not_revoked st2) eqn:G3; [|now left].
  rewrite (proj2 (plain_cert j) Cj). right. split; [reflexivity|]. destruct D2 as [(Np & _)|(_ & -> & _)]; [exact Np|]. rewrite (proj2 (plain_cert j) Cj) in G3. discriminate.
Qed.

(** The attempts together. *)
Definition passes_good (k : hkey) (ro : Z) (w : hworld) (r : hres) : Prop :=
  evolves w (world_of r) /\
  (hc_strict cf <> STRICT_OFF \/ (exists w', r = HRefuse w') -> same_features (hw_o w) (hw_o (world_of r))) /\
  (forall w', r = HAccept w' -> exists j ro1 w1, shown hkeys k j /\ permitted cf j /\ (ro1 = ro \/ (ro = RDRW /\ ro1 = RDONLY)) /\ evolves w w1 /\ same_features (hw_o w) (hw_o w1) /\
     pass_basis cf en clobber port nested hostname hkeys j ro1 w1 w') /\
  (forall w', r = HLoop w' -> exists j w1, r = nested j w1 /\ tries cf clobber port) /\
  (forall w', r = HCrash w' -> (exists j w1, shown hkeys k j /\ r = nested j w1 /\ tries cf clobber port) \/
     (exists ik j, ipkeys = Some ik /\ shown hkeys k j /\ marked ik j /\ conflicting hkeys j /\ ho_check_ip (hw_o w) = true)) /\
  (forall w' ik, r = HAccept w' -> hk_cert k = None -> ipkeys = Some ik -> conflicting ik k -> ho_check_ip (hw_o w') = true ->
     hc_strict cf = STRICT_OFF \/ (hc_strict cf = STRICT_ASK /\ asked None w w')) /\
  adds_only w (world_of r) (fun n j => shown hkeys k j /\ addable cf en hostname host ip hkeys j ro w (world_of r) n j).

Lemma addable_mono : forall k ro ro1 w w1 w2 w' n j, (ro1 = ro \/ (ro = RDRW /\ ro1 = RDONLY)) -> evolves w w1 -> evolves w2 w' ->
  addable cf en hostname host ip hkeys k ro1 w1 w2 n j -> addable cf en hostname host ip hkeys k ro w w' n j.
Proof.
  intros k ro ro1 w w1 w2 w' n j R E E2 (-> & Rr & Cn & Ru & Pe & D). split; [reflexivity|]. split; [destruct R as [<- |[X Y]]; [exact Rr|exact X]|]. repeat (split; [assumption|]).
  destruct D as [(A & B & C)|(A & B & C & D)]; [left|right].
  - split; [exact A|]. split; [|exact C]. eapply evolves_ip; eassumption.
  - split; [exact A|]. split; [exact B|]. split.
    + intros K. destruct (C K) as (fp & Fp & As). exists fp. split; [exact Fp|]. eapply asked_earlier; [exact E|]. eapply asked_later; eassumption.
    + destruct D as [D|[D D2]]; [now left|right]. split; [eapply evolves_ip; eassumption|exact D2].
Qed.

Lemma passes_ok : forall k ro w, passes_good k ro w (passes en pass k ro w).
Proof.
  intros k ro w. pose proof (passes_shape k ro w) as Sh. cbv zeta in Sh. set (r := passes en pass k ro w) in *. clearbody r.
  destruct (pass_ok cf en clobber port nested Nested hostname host ip hkeys ipkeys k (sshkey_is_cert k) None ro w) as (E1 & S1 & A1 & F1 & D1).
  pose proof (pass_adds cf en clobber port nested Nested NestedAdds hostname host ip hkeys ipkeys k (sshkey_is_cert k) None ro w) as Ad1. cbv zeta in Ad1.
  assert (Sk : shown hkeys k k) by now left.
  destruct Sh as [P1|[(wc & st & ro' & w1 & P1 & R)|(wc & st & ro' & w1 & j & P1 & Sj & Nj & Cj & Sf & Ev & Ro & P2)]]; rewrite P1 in *; cbn [pass_world] in *.
  - assert (Sref : hc_strict cf <> STRICT_OFF \/ (exists w', r = HRefuse w') -> same_features (hw_o w) (hw_o (world_of r))).
    { intros [X|[w' X]]; [now apply S1|]. destruct (D1 r eq_refl) as [[w2 Y]|[[w2 Y]|[(w2 & Y & _)|[Y _]]]]; rewrite X in *; try discriminate.
      rewrite Y. apply Nested. right. exists w'. now symmetry. }
    split; [exact E1|]. split; [exact Sref|]. split.
    + intros w' ->. destruct (A1 w' eq_refl) as [Pe B]. exists k, ro, w. split; [exact Sk|]. split; [exact Pe|]. split; [now left|]. split; [apply evolves_refl|]. split; [apply same_refl|exact B].
    + split; [|split; [|split]].
      * intros w' X. destruct (D1 r eq_refl) as [[w2 Y]|[[w2 Y]|[(w2 & Y & _)|[Y T]]]]; try congruence. exists k, w. now split.
      * intros w' X. destruct (D1 r eq_refl) as [[w2 Y]|[[w2 Y]|[(w2 & Y & ik & Ik & M & C & Ip)|[Y T]]]]; try congruence; [right|left].
        -- exists ik, k. auto.
        -- exists k, w. auto.
      * intros w' ik X Cn Ik Cl Ip. rewrite X in P1. eapply pass_address; eassumption.
      * eapply adds_weaken; [|exact Ad1]. intros n j H. assert (j = k) as -> by apply H. split; [exact Sk|exact H].
  - destruct (F1 _ _ _ _ eq_refl) as [Sf _]. assert (Rw : world_of r = w1) by (destruct R as [-> | ->]; reflexivity). 
    split; [now rewrite Rw|]. split; [intros _; now rewrite Rw|]. split; [intros w' ->; destruct R; discriminate|]. split; [intros w' ->; destruct R; discriminate|]. split; [intros w' ->; destruct R; discriminate|].
    split; [intros w' ik ->; destruct R; discriminate|]. rewrite Rw. eapply adds_weaken; [|exact Ad1]. intros n j H. assert (j = k) as -> by apply H. split; [exact Sk|exact H].
  - destruct (pass_ok cf en clobber port nested Nested hostname host ip hkeys ipkeys j wc st ro' w1) as (E2 & S2 & A2 & F2 & D2).
    pose proof (pass_adds cf en clobber port nested Nested NestedAdds hostname host ip hkeys ipkeys j wc st ro' w1) as Ad2. cbv zeta in Ad2.
    assert (Rw : world_of r = pass_world (pass j wc st ro' w1)) by (destruct P2 as [P2|(wc2 & st2 & ro2 & w2 & P2 & [-> |[-> _]])]; rewrite P2; reflexivity).
    rewrite <- Rw in *.
    assert (Sref : hc_strict cf <> STRICT_OFF \/ (exists w', r = HRefuse w') -> same_features (hw_o w) (hw_o (world_of r))).
    { intros X. eapply same_trans; [exact Sf|]. destruct P2 as [P2|(wc2 & st2 & ro2 & w2 & P2 & R)].
      - destruct X as [X|[w' X]]; [now apply S2|]. destruct (D2 r P2) as [[w2 Y]|[[w2 Y]|[(w2 & Y & _)|[Y _]]]]; rewrite X in *; try discriminate. rewrite Y. apply Nested. right. exists w'. now symmetry.
      - destruct (F2 _ _ _ _ P2) as [Z _]. rewrite Rw, P2. exact Z. }
    split; [eapply evolves_trans; eassumption|]. split; [exact Sref|].
    assert (P3 : forall w', r = HAccept w' \/ r = HLoop w' \/ r = HCrash w' -> pass j wc st ro' w1 = PDone r).
    { intros w' X. destruct P2 as [P2|(wc2 & st2 & ro2 & w2 & _ & R)]; [exact P2|]. exfalso. destruct R as [-> |[-> _]]; destruct X as [X|[X|X]]; discriminate. }
    split; [|split; [|split; [|split]]].
    + intros w' X. pose proof (P3 w' (or_introl X)) as P. rewrite X in P. destruct (A2 w' P) as [Pe B]. exists j, ro', w1. auto 10.
    + intros w' X. pose proof (P3 w' (or_intror (or_introl X))) as P. destruct (D2 r P) as [[w2 Y]|[[w2 Y]|[(w2 & Y & _)|[Y T]]]]; try congruence. exists j, w1. now split.
    + intros w' X. pose proof (P3 w' (or_intror (or_intror X))) as P. destruct (D2 r P) as [[w2 Y]|[[w2 Y]|[(w2 & Y & ik & Ik & M & C & Ip)|[Y T]]]]; try congruence; [right|left].
      * exists ik, j. split; [exact Ik|]. split; [exact Sj|]. split; [exact M|]. split; [exact C|]. eapply evolves_ip; eassumption.
      * exists j, w1. auto.
    + intros w' ik _ Cn. exfalso. destruct Sj as [-> |(X & _)]; [now elim Nj|contradiction].
    + eapply adds_trans; [eapply adds_weaken; [|exact Ad1]|eapply adds_weaken; [|exact Ad2]]; intros n j' H; cbv beta.
      * assert (j' = k) as -> by apply H. split; [exact Sk|]. eapply addable_mono; [left; reflexivity|apply evolves_refl|exact E2|exact H].
      * assert (j' = j) as -> by apply H. split; [exact Sj|]. eapply addable_mono; [exact Ro|exact Ev|apply evolves_refl|exact H].
Qed.

Lemma passes_complete : forall k ro w, permitted cf k -> vouched cf en hostname hkeys k ->
  (forall ik, ipkeys = Some ik -> hk_cert k = None -> ~ conflicting ik k) -> exists w', passes en pass k ro w = HAccept w'.
Proof.
  intros k ro w Pe V Ni. destruct (pass_complete cf en clobber port nested hostname host ip hkeys ipkeys k (sshkey_is_cert k) None ro w Pe V Ni) as [w' P].
  exists w'. unfold passes. now rewrite P.
Qed.
End Passes.

(** The check. *)
Notation p := (if clobber then 0 else port).
Notation exempt := (hc_local_exempt cf = true /\ en_local en = true /\ hc_alias cf = None).
Definition entries_for (es : list hentry) : Prop := lookup en clobber false (file_host cf hostname p) = Some es.
Definition address_for (ip : list Z) (es : list hentry) : Prop := file_ip cf en p = Some ip /\ lookup en clobber true ip = Some es.
Definition check_good (k : hkey) (ro : Z) (w : hworld) (r : hres) : Prop :=
  evolves w (world_of r) /\
  (hc_strict cf <> STRICT_OFF \/ (exists w', r = HRefuse w') -> same_features (hw_o w) (hw_o (world_of r))) /\
  (forall w', r = HAccept w' -> (exempt /\ ho_update (hw_o w') = false) \/
     exists es j ro1 w1, entries_for es /\ shown es k j /\ permitted cf j /\
     (ro1 = RDRW -> ro = RDRW /\ existsb bad_char hostname = false) /\ evolves w w1 /\ same_features (hw_o w) (hw_o w1) /\
     pass_basis cf en clobber port nested hostname es j ro1 w1 w') /\
  (forall w', r = HLoop w' -> exists j w1, r = nested j w1 /\ tries cf clobber port) /\
  (forall w', r = HCrash w' -> (exists es j w1, entries_for es /\ shown es k j /\ r = nested j w1 /\ tries cf clobber port) \/
     (ho_check_ip (hw_o w) = true /\ exists es ip ik j, entries_for es /\ address_for ip ik /\ shown es k j /\ marked ik j /\ conflicting es j)) /\
  (forall w' ip ik, r = HAccept w' -> ~ exempt -> hk_cert k = None -> address_for ip ik -> conflicting ik k -> ho_check_ip (hw_o w') = true ->
     hc_strict cf = STRICT_OFF \/ (hc_strict cf = STRICT_ASK /\ asked None w w')) /\
  adds_only w (world_of r) (fun n j => existsb bad_char hostname = false /\ ~ exempt /\ exists es ip, entries_for es /\ file_ip cf en p = Some ip /\ shown es k j /\
     addable cf en hostname (file_host cf hostname p) ip es j ro w (world_of r) n j).

Lemma check_ok : forall k ro w, check_good k ro w (check_with cf en nested hostname port k ro clobber w).
Proof.
  intros k ro w. unfold check_with.
  destruct (hc_local_exempt cf && en_local en && negb (is_some (hc_alias cf))) eqn:Ex.
  { assert (X : exempt) by (apply andb_true_iff in Ex as [Ex A]; apply andb_true_iff in Ex as [Ex B]; repeat split; [exact Ex|exact B|destruct (hc_alias cf); [discriminate|reflexivity]]).
    split; [apply with_evolves, no_update_tighter|]. split; [intros _; unfold same_features; cbn; tauto|]. split; [intros w' [= <-]; left; split; [exact X|reflexivity]|].
    split; [discriminate|]. split; [discriminate|]. split; [intros w' ip ik _ N; now elim N|]. apply (adds_with w w), adds_refl. }
  assert (Nx : ~ exempt) by (intros (A & B & C); rewrite A, B, C in Ex; discriminate). clear Ex.
  assert (Exit : forall w', evolves w w' -> same_features (hw_o w) (hw_o w') -> hw_log w' = hw_log w -> check_good k ro w (HExit w')).
  { intros w' E S L. split; [exact E|]. split; [intros _; exact S|]. repeat (split; [discriminate|]). exists []. rewrite app_nil_r. split; [exact L|intros n j []]. }
  destruct (file_ip cf en p) as [ip|] eqn:Fi; [|apply Exit; [apply evolves_refl|apply same_refl|reflexivity]].
  set (w1 := if ho_check_ip (hw_o w) && _ then _ else w).
  assert (W1 : evolves w w1 /\ same_features (hw_o w) (hw_o w1) /\ hw_log w1 = hw_log w).
  { unfold w1. destruct (ho_check_ip (hw_o w) && (en_local en || beqb hostname ip || hc_proxy cf)); [|split; [apply evolves_refl|split; [apply same_refl|reflexivity]]]. split; [apply with_evolves, set_ip_tighter|]. split; [unfold same_features; cbn; tauto|reflexivity]. }
  clearbody w1. destruct W1 as (E1 & S1 & L1). set (ro1 := if existsb bad_char hostname then RDONLY else ro).
  assert (R1 : ro1 = RDRW -> ro = RDRW /\ existsb bad_char hostname = false) by (unfold ro1; destruct (existsb bad_char hostname); [discriminate|auto]). clearbody ro1.
  destruct (lookup en clobber false (file_host cf hostname p)) as [es|] eqn:Lh; [|now apply Exit].
  assert (Main : forall ipkeys, (forall ik, ipkeys = Some ik -> address_for ip ik) ->
    (hk_cert k = None -> ho_check_ip (hw_o w1) = true -> forall ik, address_for ip ik -> ipkeys = Some ik) ->
    check_good k ro w (passes en (one_pass cf en clobber port nested hostname (file_host cf hostname p) ip es ipkeys) k ro1 w1)).
  { intros ipkeys Ik1 Ik2. destruct (passes_ok (file_host cf hostname p) ip es ipkeys k ro1 w1) as (A1 & A2 & A3 & A4 & A5 & A6 & A7).
    set (r := passes en _ k ro1 w1) in *. clearbody r.
    split; [eapply evolves_trans; eassumption|]. split; [intros X; eapply same_trans; [exact S1|now apply A2]|].
    split; [|split; [exact A4|split; [|split]]].
    - intros w' X. right. destruct (A3 w' X) as (j & ro2 & w2 & B1 & B2 & B3 & B4 & B5 & B6). exists es, j, ro2, w2. split; [exact Lh|]. split; [exact B1|]. split; [exact B2|].
      split; [intros Y; apply R1; destruct B3 as [<- |[B3 _]]; assumption|]. split; [eapply evolves_trans; eassumption|]. split; [eapply same_trans; eassumption|exact B6].
    - intros w' X. destruct (A5 w' X) as [(j & w2 & Y)|(ik & j & Y1 & Y2 & Y3 & Y4 & Y5)]; [left; exists es, j, w2; now split|right]. split; [eapply evolves_ip; eassumption|]. exists es, ip, ik, j. split; [exact Lh|]. split; [now apply Ik1|]. auto.
    - intros w' ip' ik X _ Cn [Fi' Li'] Cl Ip. rewrite Fi in Fi'. injection Fi' as <-.
      assert (Ip1 : ho_check_ip (hw_o w1) = true) by (rewrite X in A1; exact (evolves_ip cf _ _ A1 Ip)).
      assert (Q : ipkeys = Some ik) by (apply Ik2; [exact Cn|exact Ip1|split; [exact Fi|exact Li']]).
      destruct (A6 w' ik X Cn Q Cl Ip) as [Y|[Y Y2]]; [now left|right]. split; [exact Y|]. eapply asked_earlier; eassumption.
    - destruct A7 as (l & Ll & Al). exists l. split; [now rewrite Ll, L1|]. intros n j I. destruct (Al n j I) as [B1 B2].
      assert (Rr : ro1 = RDRW) by apply B2. destruct (R1 Rr) as [Rr2 Bc]. split; [exact Bc|]. split; [exact Nx|]. exists es, ip. split; [exact Lh|]. split; [exact Fi|]. split; [exact B1|].
      eapply addable_mono; [left; exact (eq_trans Rr (eq_sym Rr2))|exact E1|apply evolves_refl|exact B2]. }
  destruct (negb (sshkey_is_cert k) && ho_check_ip (hw_o w1)) eqn:Lo.
  - destruct (lookup en clobber true ip) as [ik|] eqn:Li; [|now apply Exit]. apply Main.
    + intros ik' [= <-]. now split.
    + intros _ _ ik' [_ X]. congruence.
  - apply Main; [discriminate|]. intros Cn Ip. rewrite (proj2 (plain_cert k) Cn), Ip in Lo. discriminate.
Qed.

Lemma check_complete : forall k ro w es ip, entries_for es -> file_ip cf en p = Some ip ->
  permitted cf k -> vouched cf en hostname es k ->
  (hk_cert k = None -> ho_check_ip (hw_o w) = true -> exists ik, lookup en clobber true ip = Some ik /\ ~ conflicting ik k) ->
  exists w', check_with cf en nested hostname port k ro clobber w = HAccept w'.
Proof.
  intros k ro w es ip Le Fi Pe V Ni. unfold check_with. destruct (_ && negb (is_some (hc_alias cf))); [eexists; reflexivity|]. rewrite Fi.
  set (w1 := if ho_check_ip (hw_o w) && _ then _ else w).
  assert (I1 : ho_check_ip (hw_o w1) = true -> ho_check_ip (hw_o w) = true) by (unfold w1; destruct (ho_check_ip (hw_o w) && (en_local en || beqb hostname ip || hc_proxy cf)); [discriminate|auto]).
  clearbody w1. unfold entries_for in Le. rewrite Le. destruct (negb (sshkey_is_cert k) && ho_check_ip (hw_o w1)) eqn:Lo.
  - apply andb_true_iff in Lo as [Lo1 Lo2]. apply negb_true_iff in Lo1. destruct (Ni (proj1 (plain_cert k) Lo1) (I1 Lo2)) as (ik & -> & Nc).
    apply passes_complete; [exact Pe|exact V|]. intros ik' [= <-] _. exact Nc.
  - apply passes_complete; [exact Pe|exact V|]. discriminate.
Qed.
End Check.

(** Without the port. *)
Section Host.
Variable hostname : list Z.
Notation vouched := (vouched cf en hostname).
Notation host_entries := (host_entries cf en hostname).
Notation in_scope := (in_scope cf en hostname).
Notation basis := (basis cf en hostname).
Notation form := (form en).

Lemma end_nested : forall (k : hkey) w, evolves w (world_of ((fun _ w => HCrash w) k w)) /\
  (hc_strict cf <> STRICT_OFF \/ (exists w', (fun _ w => HCrash w) k w = HRefuse w') -> same_features (hw_o w) (hw_o (world_of ((fun _ w => HCrash w) k w)))).
Proof. intros k w. split; [apply evolves_refl|intros _; apply same_refl]. Qed.
Lemma end_adds : forall (k : hkey) w, adds_only w (world_of ((fun _ w => HCrash w) k w)) (fun _ _ => False).
Proof. intros k w. apply adds_refl. Qed.
Lemma portless_ok : forall k w, check_good true 0 (fun _ w => HCrash w) hostname k ROQUIET w (check_portless cf en hostname k w).
Proof. intros k w. apply check_ok; [apply end_nested|apply end_adds]. Qed.
Lemma portless_nested : forall k w, evolves w (world_of (check_portless cf en hostname k w)) /\
  (hc_strict cf <> STRICT_OFF \/ (exists w', check_portless cf en hostname k w = HRefuse w') -> same_features (hw_o w) (hw_o (world_of (check_portless cf en hostname k w)))).
Proof. intros k w. destruct (portless_ok k w) as (A & B & _). now split. Qed.
Lemma portless_adds : forall k w, adds_only w (world_of (check_portless cf en hostname k w)) (fun _ _ => False).
Proof.
  intros k w. destruct (portless_ok k w) as (_ & _ & _ & _ & _ & _ & A). eapply adds_weaken; [|exact A]. intros n j (_ & _ & es & ip & _ & _ & _ & _ & R & _). discriminate.
Qed.
Lemma portless_accept : forall k w w', check_portless cf en hostname k w = HAccept w' ->
  (hc_local_exempt cf = true /\ en_local en = true /\ hc_alias cf = None /\ ho_update (hw_o w') = false) \/
  exists es j, lookup en true false (file_host cf hostname 0) = Some es /\ form k j /\ permitted cf j /\
    (vouched es j \/ ((marked es j \/ conflicting es j) /\ hc_strict cf = STRICT_OFF /\ unexposed (hw_o w') /\ ho_update (hw_o w') = false /\ (hc_exit cf = true -> unexposed (hw_o w)))).
Proof.
  intros k w w' H. destruct (portless_ok k w) as (_ & _ & A & _). destruct (A w' H) as [[(B1 & B2 & B3) B4]|(es & j & ro1 & w1 & C1 & C2 & C3 & C4 & C5 & C6 & C7)]; [left; auto|right].
  exists es, j. split; [exact C1|]. split; [destruct C2 as [-> |(C2 & C8 & _)]; [now left|right; now split]|]. split; [exact C3|].
  inversion C7 as [V|w2 U T|U Cn R|M O Ux Up Xe]; [now left| | |].
  - destruct T as (_ & _ & _ & T). discriminate.
  - destruct (C4 R). discriminate.
  - right. split; [destruct M as [M|[M _]]; auto|]. split; [exact O|]. split; [exact Ux|]. split; [exact Up|]. intros X. eapply same_unexposed; [exact C6|now apply Xe].
Qed.

Theorem check_basis : forall port k ro w w', check_host_key cf en hostname port k ro w = HAccept w' -> basis port k w w' /\ evolves w w'.
Proof.
  intros port k ro w w' H. destruct (check_ok false port _ portless_nested portless_adds hostname k ro w) as (E & _ & A & _). unfold check_host_key in H. rewrite H in E, A. split; [|exact E].
  destruct (A w' eq_refl) as [[(B1 & B2 & B3) B4]|(es & j & ro1 & w1 & C1 & C2 & C3 & C4 & C5 & C6 & C7)]; [now apply ba_exempt|].
  assert (Sc : in_scope port false es k j) by (split; [exact C1|exact C2]).
  inversion C7 as [V|w2 U T Nk E2 S2 Up|U Cn R Uf St As|M O Ux Up Xe].
  - eapply ba_known; eassumption.
  - destruct T as (T1 & T2 & T3 & _). destruct (portless_accept _ _ _ Nk) as [(D1 & D2 & D3 & D4)|(es2 & j2 & D1 & D2 & D3 & D4)].
    + now apply ba_exempt.
    + assert (Fj : form k j2).
      { destruct D2 as [-> |(D2 & D2')]; destruct C2 as [-> |(C2 & C2' & _)]; [now left|right; now split|right; now split|].
        exfalso. apply D2. eapply Plain. exact C2'. }
      assert (Sc2 : in_scope port true es2 k j2) by (split; [exact D1|]; split; [exact Fj|]; split; [exact T1|]; split; [exact T2|]; split; [exact T3|]; exists j, es; auto).
      destruct D4 as [V|(M & O & Ux & Up2 & Xe)]; [eapply ba_known; eassumption|]. eapply ba_forced; try eassumption.
      * eapply unexposed_tighter; [apply E2|exact Ux].
      * intros X. eapply same_unexposed; [exact C6|now apply Xe].
  - destruct (C4 R) as [_ Bc]. eapply ba_new; try eassumption.
    + intros c I. destruct (bad_char c) eqn:B; [|reflexivity]. exfalso. assert (X : existsb bad_char hostname = true) by (apply existsb_exists; exists c; now split). congruence.
    + intros K. destruct (As K) as (fp & Fp & Q). exists fp. split; [exact Fp|]. eapply asked_earlier; eassumption.
  - eapply ba_forced; try eassumption; [destruct M as [M|[M _]]; auto|]. intros X. eapply same_unexposed; [exact C6|now apply Xe].
Qed.

Theorem check_world : forall port k ro w, let r := check_host_key cf en hostname port k ro w in
  evolves w (world_of r) /\ (hc_strict cf <> STRICT_OFF \/ (exists w', r = HRefuse w') -> same_features (hw_o w) (hw_o (world_of r))).
Proof. intros port k ro w r. destruct (check_ok false port _ portless_nested portless_adds hostname k ro w) as (E & S & _). now split. Qed.

Theorem check_no_loop : forall port k ro w w', check_host_key cf en hostname port k ro w <> HLoop w'.
Proof.
  intros port k ro w w' H. destruct (check_ok false port _ portless_nested portless_adds hostname k ro w) as (_ & _ & _ & L & _). unfold check_host_key in H. rewrite H in L.
  destruct (L w' eq_refl) as (j & w1 & N & _). destruct (portless_ok j w1) as (_ & _ & _ & L2 & _). rewrite <- N in L2. destruct (L2 w' eq_refl) as (j2 & w2 & _ & (_ & _ & _ & T)). discriminate.
Qed.
Theorem check_crash : forall port k ro w w', check_host_key cf en hostname port k ro w = HCrash w' ->
  exists portless es ip ik j, form k j /\ host_entries port portless es /\ file_ip cf en (if portless then 0 else port) = Some ip /\ lookup en portless true ip = Some ik /\ marked ik j /\ conflicting es j.
Proof.
  assert (F : forall es k j, shown cf en es k j -> form k j) by (intros es k j [-> |(A & B & _)]; [now left|right; now split]).
  intros port k ro w w' H. destruct (check_ok false port _ portless_nested portless_adds hostname k ro w) as (_ & _ & _ & _ & L & _). unfold check_host_key in H. rewrite H in L.
  destruct (L w' eq_refl) as [(es & j & w1 & Le & Sj & N & _)|(_ & es & ip & ik & j & L1 & [L2 L3] & L4 & L5 & L6)].
  - destruct (portless_ok j w1) as (_ & _ & _ & _ & L2 & _). rewrite <- N in L2. destruct (L2 w' eq_refl) as [(_ & _ & _ & _ & _ & _ & (_ & _ & _ & T))|(_ & es2 & ip & ik & j2 & M1 & [M2 M3] & M4 & M5 & M6)]; [discriminate|].
    exists true, es2, ip, ik, j2. split; [|auto].
    destruct M4 as [-> |(M4 & M4p & _)]; [eapply F; eassumption|]. destruct Sj as [-> |(_ & Sj & _)]; [right; now split|]. exfalso. apply M4. eapply Plain. exact Sj.
  - exists false, es, ip, ik, j. split; [eapply F; eassumption|]. auto.
Qed.
End Host.
End P.
