From Verif Require Import Base StrictModel StrictSpec.

(** The dispatch table during the first exchange. *)
Definition table_is (k : kx) (t : Z) (h : handler) : Prop :=
  forall i, k_table k i = if i =? t then h else if (1 <=? i) && (i <=? 49) then HProtErr else HNull.

Definition waiting (todo : list Z) : Z := match todo with [] => 21 | t :: _ => t end.
Definition wait_h (todo : list Z) : handler := match todo with [] => HNewkeys | _ => HMethod end.

Inductive inv (server : bool) (h : list msg) (k : kx) : Prop :=
| IStart : k_initial k = true -> k_strict k = false -> k_seq k = zlen h -> zlen h < U32 -> k_skip k = 0 ->
    table_is k 20 HKexinit -> k_next k = [] -> inv server h k
| ILax : k_initial k = true -> k_strict k = false -> (forall i, k_table k i <> HKexinit) -> inv server h k
| IStrict ki guess rest todo :
    k_initial k = true -> k_strict k = true -> h = ki :: guess ++ rest -> m_ty ki = 20 -> m_strict ki = true ->
    map m_ty rest ++ todo = awaited server (m_gex ki) ->
    k_next k = tl todo ->
    table_is k (waiting todo) (wait_h todo) ->
    (if m_wrong_guess ki then (length guess = 1%nat /\ k_skip k = 0) \/ (guess = [] /\ rest = [] /\ k_skip k = 1)
     else guess = [] /\ k_skip k = 0) ->
    inv server h k
| IOver : k_initial k = false -> inv server h k.

Lemma awaited_methods : forall server gex, method_types server gex = awaited server gex.
Proof. intros [|] [|]; reflexivity. Qed.

Lemma method_go_server : forall k l, k_server (method_go k l) = k_server k.
Proof. intros k [|t l]; reflexivity. Qed.
Lemma server_const : forall k m k', receive k m = Some k' -> k_server k' = k_server k.
Proof.
  intros k m k' H. unfold receive in H.
  destruct ((u32 (k_seq k + 1) =? 0) && k_initial k); [discriminate|].
  set (k1 := with_kseq _ _) in H. assert (E : k_server k1 = k_server k) by reflexivity. rewrite <- E. clearbody k1. clear E.
  destruct (m_ty m =? MSG_DISCONNECT); [discriminate|].
  destruct (negb (k_initial k1 && k_strict k1) && implicit (m_ty m)).
  { destruct (m_ok m); [|discriminate]. now injection H as <-. }
  unfold dispatch in H. destruct ((0 <? m_ty m) && (m_ty m <? DISPATCH_MAX)); [|discriminate].
  assert (HC : forall h, (if negb (k_skip k1 =? 0) then Some (with_skip k1 (k_skip k1 - 1)) else call h k1 m (k_seq k)) = Some k' -> k_server k' = k_server k1).
  { clear. intros h H. destruct (negb (k_skip k1 =? 0)); [now injection H as <-|].
    destruct h; cbn [call] in H; try discriminate.
    - unfold protocol_error in H. destruct (k_initial k1 && k_strict k1); [discriminate|now injection H as <-].
    - unfold input_kexinit in H. destruct (negb (m_ok m)); [discriminate|].
      match type of H with (if ?b then _ else _) = _ => destruct b; [discriminate|] end.
      injection H as <-. rewrite method_go_server. destruct (m_wrong_guess m); reflexivity.
    - unfold input_method in H. destruct (negb (m_ok m)); [discriminate|]. injection H as <-. now rewrite method_go_server.
    - unfold input_newkeys in H. destruct (negb (m_ok m)); [discriminate|]. injection H as <-. destruct (k_ext k1 && k_initial k1); reflexivity.
    - unfold input_ext_info in H. destruct (negb (m_ok m)); [discriminate|]. now injection H as <-. }
  destruct (k_table k1 (m_ty m)) eqn:Et; try discriminate; eapply HC; exact H.
Qed.

Lemma initial_false : forall k m k', k_initial k = false -> receive k m = Some k' -> k_initial k' = false.
Proof.
  intros k m k' Hi H. unfold receive in H. rewrite Hi in H. rewrite andb_false_r in H.
  set (k1 := with_kseq _ _) in H. assert (E : k_initial k1 = false) by exact Hi. clearbody k1. clear Hi.
  destruct (m_ty m =? MSG_DISCONNECT); [discriminate|].
  destruct (negb (k_initial k1 && k_strict k1) && implicit (m_ty m)).
  { destruct (m_ok m); [|discriminate]. now injection H as <-. }
  unfold dispatch in H. destruct ((0 <? m_ty m) && (m_ty m <? DISPATCH_MAX)); [|discriminate].
  assert (HC : forall h, (if negb (k_skip k1 =? 0) then Some (with_skip k1 (k_skip k1 - 1)) else call h k1 m (k_seq k)) = Some k' -> k_initial k' = false).
  { clear - E. intros h H. destruct (negb (k_skip k1 =? 0)); [now injection H as <-|].
    destruct h; cbn [call] in H; try discriminate.
    - unfold protocol_error in H. rewrite E in H. cbn in H. now injection H as <-.
    - unfold input_kexinit in H. destruct (negb (m_ok m)); [discriminate|].
      match type of H with (if ?b then _ else _) = _ => destruct b; [discriminate|] end.
      injection H as <-. destruct (method_types _ _), (m_wrong_guess m); exact E.
    - unfold input_method in H. destruct (negb (m_ok m)); [discriminate|]. injection H as <-.
      destruct (k_next _); exact E.
    - unfold input_newkeys in H. destruct (negb (m_ok m)); [discriminate|]. now injection H as <-.
    - unfold input_ext_info in H. destruct (negb (m_ok m)); [discriminate|]. now injection H as <-. }
  destruct (k_table k1 (m_ty m)) eqn:Et; try discriminate; eapply HC; exact H.
Qed.

(** Starting the method from a table in which [old] is the only handler. *)
Lemma go_table : forall k old h todo, table_is k old h -> 1 <= old <= 49 -> (forall t, In t todo -> 1 <= t <= 49) ->
  table_is (method_go (set_handler k old HProtErr) todo) (waiting todo) (wait_h todo).
Proof.
  intros k old h todo H Ho Ht i. specialize (H i).
  destruct todo as [|t r]; cbn [method_go waiting wait_h].
  - unfold send_newkeys, set_handler, reset_dispatch, set_range, with_table, with_next; cbn [k_table].
    unfold MSG_NEWKEYS, TRANSPORT_MIN, TRANSPORT_MAX. destruct (i =? 21); [reflexivity|].
    destruct ((1 <=? i) && (i <=? 49)) eqn:E; [reflexivity|]. destruct (i =? old) eqn:Eo; [|].
    + exfalso. lia.
    + exact H.
  - unfold set_handler, with_table, with_next; cbn [k_table]. specialize (Ht t (or_introl eq_refl)).
    destruct (i =? t); [reflexivity|]. destruct (i =? old) eqn:Eo; [|exact H].
    replace ((1 <=? i) && (i <=? 49)) with true by lia. reflexivity.
Qed.

Lemma awaited_range : forall server gex t, In t (awaited server gex) -> 30 <= t <= 34.
Proof. intros [|] [|] t H; cbn in H; intuition lia. Qed.

Definition FinishOk (server : bool) (h : list msg) (k' : kx) : Prop :=
  in_order server h /\ k_seq k' = 0.

Lemma step_inv : forall server h k m k', k_server k = server -> inv server h k -> receive k m = Some k' ->
  inv server (h ++ [m]) k' /\ (k_initial k = true -> k_initial k' = false -> k_strict k' = true -> FinishOk server (h ++ [m]) k').
Proof.
  intros server h k m k' Hsv HI H. destruct HI as [Hi Hs Hq Hl Hk Ht Hn | Hi Hs Ht | ki guess rest todo Hi Hs Hh Hki Hst Hm Hn Ht Hg | Hi].
  - (* before KEXINIT *)
    unfold receive in H. rewrite Hi, andb_true_r in H. destruct (u32 (k_seq k + 1) =? 0) eqn:Ew; [discriminate|].
    set (k1 := with_kseq _ _) in H.
    assert (F : k_initial k1 = true /\ k_strict k1 = false /\ k_seq k1 = zlen (h ++ [m]) /\ zlen (h ++ [m]) < U32 /\ k_skip k1 = 0 /\ table_is k1 20 HKexinit /\ k_next k1 = [] /\ k_server k1 = server).
    { unfold k1. rewrite Hs, andb_false_r. rewrite zlen_app, zlen_cons, zlen_nil. cbn [with_kseq k_initial k_strict k_seq k_skip k_next k_server].
      pose proof (zlen_nonneg _ h). unfold u32 in *.
      destruct (Z.eq_dec (k_seq k + 1) U32) as [Q|Q]; [rewrite Q, Z_mod_same_full in Ew; lia|].
      rewrite Z.mod_small by lia. splits; auto; lia. }
    destruct F as (F1 & F2 & F3 & F4 & F5 & F6 & F7 & F8).
    assert (Hsame : inv server (h ++ [m]) k1) by (apply IStart; auto).
    clearbody k1. rewrite F1, F2 in H. cbn [andb negb] in H.
    destruct (m_ty m =? MSG_DISCONNECT); [discriminate|].
    destruct (implicit (m_ty m)).
    { destruct (m_ok m); [|discriminate]. injection H as <-. split; [exact Hsame|intros _ E; congruence]. }
    unfold dispatch in H. destruct ((0 <? m_ty m) && (m_ty m <? DISPATCH_MAX)); [|discriminate].
    rewrite (F6 (m_ty m)) in H. rewrite F5 in H. cbn [Z.eqb negb] in H.
    destruct (m_ty m =? 20) eqn:E20.
    + cbn [call] in H. unfold input_kexinit in H. destruct (m_ok m); cbn [negb] in H; [|discriminate].
      cbn [set_handler with_table with_conf k_initial k_server] in H. rewrite F1 in H. cbn [andb] in H.
      destruct (m_strict m) eqn:Es; cbn [andb] in H.
      * destruct (negb (k_seq k =? 0)) eqn:Eq; [discriminate|].
        assert (Hnil : h = []) by (apply zlen_zero_nil; lia). subst h. cbn [app] in *.
        injection H as <-. rewrite awaited_methods.
        set (k2 := if m_wrong_guess m then _ else _).
        assert (G : k2 = set_handler (with_skip (with_conf k1 true (m_ext m)) (if m_wrong_guess m then 1 else 0)) MSG_KEXINIT HProtErr).
        { unfold k2. destruct (m_wrong_guess m); [reflexivity|]. destruct k1; cbn in *. subst. reflexivity. }
        assert (G2 : k_server k2 = server) by (rewrite G; cbn; auto). rewrite G2, G. clear G G2.
        clear k2. set (k2 := with_skip _ _).
        assert (T2 : table_is k2 20 HKexinit) by exact F6.
        pose proof (awaited_range server (m_gex m)) as Hr.
        split.
        { apply (IStrict server [m] _ m [] [] (awaited server (m_gex m))); auto; try lia.
          - destruct (awaited _ _); exact F1.
          - destruct (awaited _ _); reflexivity.
          - destruct (awaited _ _); reflexivity.
          - apply go_table with (h := HKexinit); auto; [unfold MSG_KEXINIT; lia|]. intros t Hin. specialize (Hr t Hin). lia.
          - unfold k2. destruct (awaited server (m_gex m)); destruct (m_wrong_guess m); cbn; auto. }
        { intros _ E. exfalso. destruct (awaited server (m_gex m)); cbn in E; congruence. }
      * injection H as <-. split.
        { apply ILax.
          - destruct (method_types _ _), (m_wrong_guess m); exact F1.
          - destruct (method_types _ _), (m_wrong_guess m); reflexivity.
          - rewrite awaited_methods. set (k2 := if m_wrong_guess m then _ else _). intros i.
            assert (T2 : forall i, k_table k2 i <> HKexinit).
            { intros j. unfold k2. destruct (m_wrong_guess m); cbn [with_skip with_conf k_table set_handler with_table]; rewrite F6; unfold MSG_KEXINIT; destruct (j =? 20); try discriminate; destruct ((1 <=? j) && (j <=? 49)); discriminate. }
            destruct (awaited _ _); cbn [method_go send_newkeys set_handler with_table with_next k_table reset_dispatch set_range].
            + destruct (i =? MSG_NEWKEYS); [discriminate|]. destruct ((TRANSPORT_MIN <=? i) && (i <=? TRANSPORT_MAX)); [discriminate|]. apply T2.
            + destruct (i =? z); [discriminate|]. apply T2. }
        { intros _ E. exfalso. destruct (method_types _ _), (m_wrong_guess m); cbn in E; congruence. }
    + destruct ((1 <=? m_ty m) && (m_ty m <=? 49)); [|discriminate]. cbn [call] in H. unfold protocol_error in H.
      rewrite F1, F2 in H. cbn [andb] in H. injection H as <-. split; [exact Hsame|intros _ E; congruence].
  - (* lax *)
    unfold receive in H. rewrite Hi, andb_true_r in H. destruct (u32 (k_seq k + 1) =? 0) eqn:Ew; [discriminate|].
    set (k1 := with_kseq _ _) in H.
    assert (F1 : k_initial k1 = true) by exact Hi. assert (F2 : k_strict k1 = false) by exact Hs.
    assert (F3 : forall i, k_table k1 i <> HKexinit) by exact Ht. clearbody k1. rewrite F1, F2 in H. cbn [andb negb] in H.
    assert (Hsame : inv server (h ++ [m]) k1) by (apply ILax; auto).
    destruct (m_ty m =? MSG_DISCONNECT); [discriminate|].
    destruct (implicit (m_ty m)).
    { destruct (m_ok m); [|discriminate]. injection H as <-. split; [exact Hsame|intros _ E; congruence]. }
    unfold dispatch in H. destruct ((0 <? m_ty m) && (m_ty m <? DISPATCH_MAX)); [|discriminate].
    assert (HC : forall hd, hd <> HKexinit -> (if negb (k_skip k1 =? 0) then Some (with_skip k1 (k_skip k1 - 1)) else call hd k1 m (k_seq k)) = Some k' ->
       (k_initial k' = true /\ k_strict k' = false /\ forall i, k_table k' i <> HKexinit) \/ (k_initial k' = false /\ k_strict k' = false)).
    { clear H. intros hd Hd H. destruct (negb (k_skip k1 =? 0)); [injection H as <-; left; auto|].
      destruct hd; cbn [call] in H; try discriminate; try congruence.
      - unfold protocol_error in H. rewrite F2, andb_false_r in H. injection H as <-. left; auto.
      - unfold input_method in H. destruct (negb (m_ok m)); [discriminate|]. injection H as <-. left. cbn [set_handler with_table k_next].
        destruct (k_next k1); (split; [exact F1|split; [exact F2|]]); intros i; cbn [method_go send_newkeys set_handler with_table with_next k_table reset_dispatch set_range].
        + destruct (i =? MSG_NEWKEYS); [discriminate|]. destruct ((TRANSPORT_MIN <=? i) && (i <=? TRANSPORT_MAX)); [discriminate|]. destruct (i =? m_ty m); [discriminate|apply F3].
        + destruct (i =? z); [discriminate|]. destruct (i =? m_ty m); [discriminate|apply F3].
      - unfold input_newkeys in H. destruct (negb (m_ok m)); [discriminate|]. injection H as <-. right. split; [reflexivity|]. destruct (k_ext k1 && k_initial k1); exact F2.
      - unfold input_ext_info in H. destruct (negb (m_ok m)); [discriminate|]. injection H as <-. left. split; [exact F1|split; [exact F2|]]. intros i. cbn [set_handler with_table k_table]. destruct (i =? MSG_EXT_INFO); [discriminate|apply F3]. }
    pose proof (F3 (m_ty m)) as Hne. destruct (k_table k1 (m_ty m)) eqn:Et; try discriminate; try congruence; destruct (HC _ Hne H) as [(A1 & A2 & A3)|(A1 & A2)];
      (split; [first [apply ILax; assumption | apply IOver; assumption] | intros _ E1 E2; congruence]).
  - (* strict *)
    unfold receive in H. rewrite Hi, andb_true_r in H. destruct (u32 (k_seq k + 1) =? 0) eqn:Ew; [discriminate|].
    set (k1 := with_kseq _ _) in H.
    assert (F1 : k_initial k1 = true) by exact Hi. assert (F2 : k_strict k1 = true) by exact Hs.
    assert (F3 : table_is k1 (waiting todo) (wait_h todo)) by exact Ht.
    assert (F4 : k_next k1 = tl todo) by exact Hn. assert (F5 : k_skip k1 = k_skip k) by reflexivity.
    assert (F6 : m_ty m = 21 -> k_seq k1 = 0) by (intros E; unfold k1; rewrite E, Hs; reflexivity).
    clearbody k1. rewrite F1, F2 in H. cbn [andb negb] in H.
    destruct (m_ty m =? MSG_DISCONNECT) eqn:Edis; [discriminate|].
    unfold dispatch in H. destruct ((0 <? m_ty m) && (m_ty m <? DISPATCH_MAX)); [|discriminate].
    rewrite (F3 (m_ty m)) in H. rewrite F5 in H.
    destruct (k_skip k =? 0) eqn:Esk; cbn [negb] in H.
    + (* not skipping *)
      assert (Hg' : if m_wrong_guess ki then length guess = 1%nat /\ k_skip k = 0 else guess = [] /\ k_skip k = 0).
      { destruct (m_wrong_guess ki); [|exact Hg]. destruct Hg as [A|(A1 & A2 & A3)]; [exact A|lia]. }
      destruct (m_ty m =? waiting todo) eqn:Ewt.
      * destruct todo as [|t todo]; cbn [waiting wait_h] in *.
        -- cbn [call] in H. unfold input_newkeys in H. destruct (m_ok m); [|discriminate].
           cbn [negb] in H. injection H as <-. split; [apply IOver; reflexivity|]. intros _ _ _. split.
           ++ exists ki, guess, (rest ++ [m]). splits; auto.
              ** rewrite Hh. cbn [app]. now rewrite <- app_assoc.
              ** destruct (m_wrong_guess ki); destruct Hg' as [A _]; [exact A|now rewrite A].
              ** rewrite map_app. rewrite app_nil_r in Hm. rewrite Hm. cbn [map]. f_equal. f_equal. lia.
           ++ cbn [with_done k_seq]. destruct (k_ext k1 && k_initial k1); cbn; apply F6; lia.
        -- cbn [call] in H. unfold input_method in H. destruct (m_ok m); [|discriminate]. cbn [negb] in H.
           cbn [set_handler with_table k_next] in H. rewrite F4 in H. cbn [tl] in H. injection H as <-.
           replace (m_ty m) with t by lia.
           assert (Hr : forall x, In x (t :: todo) -> 1 <= x <= 49).
           { intros x Hx. pose proof (awaited_range server (m_gex ki) x) as R. rewrite <- Hm in R. specialize (R (in_or_app _ _ _ (or_intror Hx))). lia. }
           split.
           ++ change (inv server (h ++ [m]) (method_go (set_handler k1 t HProtErr) todo)).
              apply (IStrict server _ _ ki guess (rest ++ [m]) todo); auto.
              ** destruct todo; exact F1.
              ** destruct todo; exact F2.
              ** rewrite Hh. cbn [app]. now rewrite <- app_assoc.
              ** rewrite map_app, <- app_assoc. cbn [map app]. replace (m_ty m) with t by lia. exact Hm.
              ** destruct todo; reflexivity.
              ** apply go_table with (h := HMethod); auto. { apply Hr. now left. } intros x Hx. apply Hr. now right.
              ** assert (Ek : k_skip (method_go (set_handler k1 t HProtErr) todo) = k_skip k) by (destruct todo; exact F5).
                 rewrite Ek. destruct (m_wrong_guess ki); [left|]; exact Hg'.
           ++ intros _ E. exfalso. destruct todo; cbn in E; congruence.
      * exfalso. destruct ((1 <=? m_ty m) && (m_ty m <=? 49)); [|discriminate]. cbn [call] in H. unfold protocol_error in H. rewrite F1, F2 in H. discriminate.
    + (* the wrong guess is thrown away *)
      destruct (m_wrong_guess ki) eqn:Ewg; [|exfalso; lia]. destruct Hg as [Hg|(G1 & G2 & G3)]; [exfalso; lia|].
      assert (Hk' : k' = with_skip k1 (k_skip k - 1)).
      { destruct (m_ty m =? waiting todo); [destruct todo; cbn [wait_h] in H; now injection H as <-|].
        destruct ((1 <=? m_ty m) && (m_ty m <=? 49)); [now injection H as <-|discriminate]. }
      subst k'. split; [|intros _ E; cbn in E; congruence].
      apply (IStrict server _ _ ki [m] [] todo); auto.
      * subst. reflexivity.
      * subst rest. exact Hm.
      * rewrite Ewg. left. split; [reflexivity|]. cbn. lia.
  - split; [apply IOver; eapply initial_false; eauto|]. intros E. congruence.
Qed.

Lemma fresh_inv : forall server, inv server [] (fresh server).
Proof.
  intros server. apply IStart; try reflexivity.
  intros i. unfold fresh, set_handler, reset_dispatch, set_range, with_table; cbn [k_table].
  unfold MSG_KEXINIT, TRANSPORT_MIN, TRANSPORT_MAX. reflexivity.
Qed.

Lemma recv_app : forall a b k, recv_all k (a ++ b) = match recv_all k a with Some k' => recv_all k' b | None => None end.
Proof. induction a as [|m a IH]; intros b k; [reflexivity|]. cbn [app recv_all]. destruct (receive k m); [apply IH|reflexivity]. Qed.

Lemma recv_inv : forall server l h k k', k_server k = server -> inv server h k -> recv_all k l = Some k' -> inv server (h ++ l) k' /\ k_server k' = server.
Proof.
  induction l as [|m l IH]; intros h k k' Hs HI H; cbn [recv_all] in H.
  - injection H as <-. now rewrite app_nil_r.
  - destruct (receive k m) as [k1|] eqn:E; [|discriminate].
    replace (h ++ m :: l) with ((h ++ [m]) ++ l) by (now rewrite <- app_assoc).
    apply IH with k1; auto.
    + rewrite (server_const _ _ _ E). exact Hs.
    + apply (step_inv server h k m k1 Hs HI E).
Qed.

(** ** Forward: an exchange in order goes through. *)
Definition good (k : kx) (todo : list Z) (skip seq : Z) : Prop :=
  k_initial k = true /\ k_strict k = true /\ table_is k (waiting todo) (wait_h todo) /\ k_next k = tl todo /\ k_skip k = skip /\
  k_seq k = seq /\ (forall t, In t todo -> 30 <= t <= 34).

Lemma good_start : forall server ki, m_ty ki = 20 -> m_strict ki = true -> m_ok ki = true ->
  exists k, receive (fresh server) ki = Some k /\ k_server k = server /\ good k (awaited server (m_gex ki)) (if m_wrong_guess ki then 1 else 0) 1.
Proof.
  intros server [t0 o0 s0 e0 w0 g0] H20 Hst Hok. cbn [m_ty m_strict m_ok m_wrong_guess m_gex] in *. subst.
  assert (E : exists k, receive (fresh server) (mkMsg 20 true true e0 w0 g0) = Some k) by (eexists; destruct server, g0, w0; reflexivity).
  destruct E as [k E]. exists k. split; [exact E|]. split; [exact (server_const _ _ _ E)|].
  destruct (step_inv server [] (fresh server) _ k eq_refl (fresh_inv server) E) as [HI _].
  assert (F : k_initial k = true /\ k_strict k = true /\ k_skip k = (if w0 then 1 else 0) /\ k_seq k = 1).
  { destruct server, g0, w0; injection E as <-; splits; reflexivity. }
  destruct F as (F1 & F2 & F3 & F4). cbn [app] in HI.
  destruct HI as [? ? | ? ? | ki guess rest todo _ _ Hh Hki _ Hm Hn Ht Hg |]; try congruence.
  injection Hh as <- Hh. symmetry in Hh. apply app_eq_nil in Hh as [-> ->]. cbn [map app m_gex] in Hm. subst todo.
  unfold good. splits; auto. intros t Hin. exact (awaited_range _ _ _ Hin).
Qed.

Lemma good_pre : forall k todo skip seq m, good k todo skip seq -> 0 <= seq < 100 -> 1 < m_ty m <= 49 ->
  receive k m = let k1 := with_kseq k (if m_ty m =? 21 then 0 else seq + 1) in
    if negb (skip =? 0) then Some (with_skip k1 (skip - 1))
    else call (if m_ty m =? waiting todo then wait_h todo else HProtErr) k1 m seq.
Proof.
  intros k todo skip seq m (G1 & G2 & G3 & G4 & G5 & G6 & G7) Hq Ht. unfold receive. rewrite G1, G2, G6, andb_true_r, andb_true_r.
  replace (u32 (seq + 1)) with (seq + 1) by (rewrite u32_id; unfold U32; lia).
  replace (seq + 1 =? 0) with false by lia. replace (m_ty m =? MSG_DISCONNECT) with false by (unfold MSG_DISCONNECT; lia).
  set (k1 := with_kseq _ _). assert (E1 : k_initial k1 = true) by exact G1. assert (E2 : k_strict k1 = true) by exact G2. rewrite E1, E2. cbn [andb negb].
  unfold dispatch. replace ((0 <? m_ty m) && (m_ty m <? DISPATCH_MAX)) with true by (unfold DISPATCH_MAX; lia).
  assert (E3 : k_table k1 = k_table k) by reflexivity. rewrite E3, G3. assert (E4 : k_skip k1 = skip) by exact G5. rewrite E4.
  replace ((1 <=? m_ty m) && (m_ty m <=? 49)) with true by lia.
  destruct (m_ty m =? waiting todo); [destruct todo; reflexivity|reflexivity].
Qed.

Lemma good_skip : forall k todo seq m, good k todo 1 seq -> 0 <= seq < 100 -> 1 < m_ty m <= 49 ->
  exists k' seq', receive k m = Some k' /\ k_server k' = k_server k /\ good k' todo 0 seq' /\ 0 <= seq' <= seq + 1.
Proof.
  intros k todo seq m G Hq Ht. rewrite (good_pre k todo 1 seq m G Hq Ht). cbn [Z.eqb negb].
  destruct G as (G1 & G2 & G3 & G4 & G5 & G6 & G7). do 2 eexists. split; [reflexivity|]. split; [reflexivity|].
  split; [unfold good; splits; auto; reflexivity|]. cbn. destruct (m_ty m =? 21); lia.
Qed.

Lemma good_step : forall k t todo seq m, good k (t :: todo) 0 seq -> 0 <= seq < 100 -> m_ty m = t -> m_ok m = true ->
  exists k', receive k m = Some k' /\ k_server k' = k_server k /\ good k' todo 0 (seq + 1).
Proof.
  intros k t todo seq m G Hq Ht Ho. pose proof G as (G1 & G2 & G3 & G4 & G5 & G6 & G7).
  pose proof (G7 t (or_introl eq_refl)) as Hr.
  rewrite (good_pre k _ 0 seq m G Hq) by lia. replace (m_ty m =? 21) with false by lia. cbv zeta. cbn [Z.eqb negb waiting wait_h].
  rewrite Ht, Z.eqb_refl. cbn [call]. unfold input_method. rewrite Ho, Ht. cbn [negb]. cbn [set_handler with_table with_kseq k_next]. rewrite G4. cbn [tl].
  eexists. split; [reflexivity|]. split; [now rewrite method_go_server|].
  set (k1 := with_kseq k (seq + 1)). change (good (method_go (set_handler k1 t HProtErr) todo) todo 0 (seq + 1)).
  unfold good. splits.
  - destruct todo; exact G1.
  - destruct todo; exact G2.
  - apply go_table with (h := HMethod); [exact G3|lia|]. intros x Hx. pose proof (G7 x (or_intror Hx)). lia.
  - destruct todo; reflexivity.
  - destruct todo; exact G5.
  - destruct todo; reflexivity.
  - intros x Hx. apply G7. now right.
Qed.

Lemma good_end : forall k seq m, good k [] 0 seq -> 0 <= seq < 100 -> m_ty m = 21 -> m_ok m = true ->
  exists k', receive k m = Some k' /\ k_initial k' = false /\ k_done k' = true /\ k_strict k' = true /\ k_seq k' = 0.
Proof.
  intros k seq m G Hq Ht Ho. pose proof G as (G1 & G2 & G3 & G4 & G5 & G6 & G7).
  rewrite (good_pre k _ 0 seq m G Hq) by lia. rewrite Ht. cbv zeta. cbn [Z.eqb negb waiting wait_h Pos.eqb call].
  unfold input_newkeys. rewrite Ho. cbn [negb]. eexists. split; [reflexivity|]. 
  match goal with |- context [if ?b then set_handler _ _ _ else _] => destruct b end; splits; auto.
Qed.

Lemma good_rest : forall todo k seq rest, good k todo 0 seq -> 0 <= seq -> seq + zlen todo < 100 -> map m_ty rest = todo ++ [21] ->
  (forall m, In m rest -> m_ok m = true) ->
  exists k', recv_all k rest = Some k' /\ k_initial k' = false /\ k_done k' = true /\ k_strict k' = true /\ k_seq k' = 0.
Proof.
  induction todo as [|t todo IH]; intros k seq rest G Hq Hl Hm Ho.
  - destruct rest as [|m [|? ?]]; try discriminate. cbn [app map] in Hm. injection Hm as Hm. rewrite zlen_nil in Hl.
    destruct (good_end k seq m G) as (k' & E & R); [lia|exact Hm|apply Ho; now left|]. exists k'. cbn [recv_all]. now rewrite E.
  - destruct rest as [|m rest]; [discriminate|]. cbn [app map] in Hm. injection Hm as Hm Hr. rewrite zlen_cons in Hl. pose proof (zlen_nonneg _ todo).
    destruct (good_step k t todo seq m G) as (k1 & E & _ & G'); [lia|exact Hm|apply Ho; now left|].
    cbn [recv_all]. rewrite E. apply (IH k1 (seq + 1) rest G'); [lia|lia|exact Hr|]. intros x Hx. apply Ho. now right.
Qed.
