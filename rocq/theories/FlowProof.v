(** Proofs about the sending side across key exchanges. *)
From Verif Require Import Base PacketModel FlowModel FlowSpec.

Section FlowProof.
Variable P : prims.
Notation st := (st P).

(** One packet: what happens to the log and the counters. *)
Lemma emit_log : forall i n t pkt t' e, tx_emit P i n t pkt = (t', e) ->
  (e <> None /\ t_log P t' = t_log P t /\ d_keys P (t_dir P t') = d_keys P (t_dir P t)) \/
  (exists f, t_log P t' = t_log P t ++ [(d_keys P (t_dir P t), d_seq P (t_dir P t), f)] /\
     d_keys P (t_dir P t') = d_keys P (t_dir P t) /\
     d_seq P (t_dir P t') = u32 (d_seq P (t_dir P t) + 1) /\
     (e = None -> d_packets P (t_dir P t') = u32 (d_packets P (t_dir P t) + 1) /\
                  (n = false -> u32 (d_packets P (t_dir P t) + 1) <> 0) /\
                  (i = true -> u32 (d_seq P (t_dir P t) + 1) <> 0)) /\
     (e <> None -> (n = false /\ u32 (d_packets P (t_dir P t) + 1) = 0) \/ (i = true /\ u32 (d_seq P (t_dir P t) + 1) = 0))).
Proof.
  intros i n t pkt t' e H. unfold tx_emit in H. unfold compress_packet in H.
  assert (forall d1, d_keys P d1 = d_keys P (t_dir P t) -> d_seq P d1 = d_seq P (t_dir P t) -> d_packets P d1 = d_packets P (t_dir P t) ->
    forall pkt1,
    match pad_length (d_block P (t_dir P t)) (u32 (u32 (zlen pkt1) - d_aadlen P (t_dir P t))) (t_extra P t) with
    | None => (mkTx P d1 (t_extra P t) (t_output P t) (t_seed P t) (t_log P t), Some EInvalidArgument)
    | Some padlen =>
      let padding := match d_keys P (t_dir P t) with
                     | Some k => if k_none k then repeat 0 (Z.to_nat padlen) else random_bytes P (t_seed P t) padlen
                     | None => repeat 0 (Z.to_nat padlen)
                     end in
      let len := u32 (zlen pkt1 + padlen) in
      let frame := be_enc 4 (u32 (len - 4)) ++ [padlen] ++ zdrop 5 pkt1 ++ padding in
      match p_crypt P (d_ctx P (t_dir P t)) (d_seq P (t_dir P t)) frame (u32 (len - d_aadlen P (t_dir P t))) (d_aadlen P (t_dir P t)) (d_authlen P (t_dir P t)) with
      | None => (mkTx P d1 0 (t_output P t) (t_seed P t + 1) (t_log P t), Some ECipher)
      | Some (out, ctx') =>
        let tag := match d_mac P (t_dir P t) with
                   | Some (k, m) => mac_compute P k m (d_seq P (t_dir P t)) (if m_etm m then out else frame)
                   | None => []
                   end in
        let '(d2, e) := count_packet P i n (with_ctx P d1 ctx') len in
        (mkTx P d2 0 (t_output P t ++ out ++ tag) (t_seed P t + 1)
           (t_log P t ++ [(d_keys P (t_dir P t), d_seq P (t_dir P t), frame)]), e)
      end
    end = (t', e) ->
    (e <> None /\ t_log P t' = t_log P t /\ d_keys P (t_dir P t') = d_keys P (t_dir P t)) \/
    (exists f, t_log P t' = t_log P t ++ [(d_keys P (t_dir P t), d_seq P (t_dir P t), f)] /\
     d_keys P (t_dir P t') = d_keys P (t_dir P t) /\
     d_seq P (t_dir P t') = u32 (d_seq P (t_dir P t) + 1) /\
     (e = None -> d_packets P (t_dir P t') = u32 (d_packets P (t_dir P t) + 1) /\
                  (n = false -> u32 (d_packets P (t_dir P t) + 1) <> 0) /\
                  (i = true -> u32 (d_seq P (t_dir P t) + 1) <> 0)) /\
     (e <> None -> (n = false /\ u32 (d_packets P (t_dir P t) + 1) = 0) \/ (i = true /\ u32 (d_seq P (t_dir P t) + 1) = 0)))) as G.
  { intros d1 K1 K2 K3 pkt1 G. destruct (pad_length _ _ _) as [padlen|]; [|injection G as <- <-; left; cbn; split; [discriminate|auto]].
    cbv zeta in G. destruct (p_crypt _ _ _ _ _ _ _) as [[out ctx']|]; [|injection G as <- <-; left; cbn; split; [discriminate|auto]].
    match type of G with (let '(_, _) := count_packet _ _ _ _ ?l in _) = _ => set (len := l) in * end.
    destruct (count_packet P i n (with_ctx P d1 ctx') len) as [d2 e2] eqn:C. injection G as <- <-. right. cbn [t_log t_dir].
    eexists. split; [reflexivity|]. unfold count_packet in C. cbn [with_ctx d_seq d_packets d_keys d_ctx] in C. rewrite K2, K3 in C.
    destruct ((u32 (d_seq P (t_dir P t) + 1) =? 0) && i) eqn:E1.
    - injection C as <- <-. cbn [d_keys d_seq d_packets]. split; [assumption|]. split; [reflexivity|]. split; [discriminate|].
      intros _. right. destruct i; lia.
    - destruct ((u32 (d_packets P (t_dir P t) + 1) =? 0) && negb n) eqn:E2; injection C as <- <-; cbn [d_keys d_seq d_packets];
        (split; [assumption|]; split; [reflexivity|]; split).
      + discriminate.
      + intros _. left. destruct n; [cbn [negb] in E2; lia|split; [reflexivity|lia]].
      + intros _. split; [reflexivity|]. split; intros ->; cbn [negb] in *; lia.
      + congruence. }
  destruct (d_comp P (t_dir P t)).
  - destruct (p_deflate P _ _) as [[c z']|]; [|injection H as <- <-; left; cbn; split; [discriminate|auto]].
    cbv zeta in H. eapply G; [..|exact H]; reflexivity.
  - cbv zeta in H. eapply G; [..|exact H]; reflexivity.
Qed.

(** * C22: sequence numbers *)

Definition log (s : st) := t_log P (s_tx P s).
Definition sd (s : st) : dir P := t_dir P (s_tx P s).
Definition kid (s : st) := key_id (d_keys P (sd s)).

Definition same_id (a b : option (list Z)) : bool :=
  match a, b with None, None => true | Some a, Some b => beqb a b | _, _ => false end.
Lemma same_id_eq : forall a b, same_id a b = true <-> a = b.
Proof.
  intros [a|] [b|]; cbn; try (split; [discriminate|discriminate]); try tauto.
  rewrite beqb_eq. split; [congruence|]. intros H; injection H; auto.
Qed.
Lemma under_app : forall id a b, under id (a ++ b) = under id a ++ under id b.
Proof. intros. unfold under. apply flat_map_app. Qed.
Lemma under_one : forall id k sq f, under id [(k, sq, f)] = if same_id (key_id k) id then [sq] else [].
Proof. intros. unfold under. cbn [flat_map]. rewrite app_nil_r. reflexivity. Qed.
Lemma counting_S : forall b n, counting b (S n) = counting b n ++ [u32 (b + Z.of_nat n)].
Proof. intros. unfold counting. rewrite seq_S, map_app. reflexivity. Qed.

(** [h]: packet counts are exact (no hand-over, no peer that cannot rekey). *)
Definition past_ok (h : bool) (s : st) (id : option (list Z)) : Prop :=
  exists b n, under id (log s) = counting b n /\ (h = true -> Z.of_nat n <= 4294967296).
Record Inv (h : bool) (U : list (option (list Z))) (s : st) : Prop := mkInv {
  v_cur : exists b n, under (kid s) (log s) = counting b n /\ d_seq P (sd s) = u32 (b + Z.of_nat n) /\
            (h = true -> d_packets P (sd s) = Z.of_nat n /\ Z.of_nat n < 4294967296);
  v_past : forall id, past_ok h s id;
  v_used : forall id, under id (log s) <> [] -> In id U;
  v_mem : In (kid s) U;
  v_h : h = true -> s_norekey P s = false
}.
Definition InvE (h : bool) (U : list (option (list Z))) (s : st) : Prop :=
  (forall id, past_ok h s id) /\ (forall id, under id (log s) <> [] -> In id U).
Lemma inv_e : forall h U s, Inv h U s -> InvE h U s.
Proof. intros h U s [A B C D]. split; assumption. Qed.

(** The parts of the state C22 is about. *)
Definition seen (s s' : st) : Prop :=
  log s' = log s /\ kid s' = kid s /\ d_seq P (sd s') = d_seq P (sd s) /\ d_packets P (sd s') = d_packets P (sd s) /\
  s_norekey P s' = s_norekey P s.
Lemma inv_seen : forall h U s s', seen s s' -> Inv h U s -> Inv h U s'.
Proof.
  intros h U s s' (L & K & S1 & S2 & N) [A B C D E]. unfold past_ok in *. split.
  - rewrite L, K, S1, S2. exact A.
  - intros id. unfold past_ok. rewrite L. apply B.
  - intros id. rewrite L. apply C.
  - rewrite K. exact D.
  - rewrite N. exact E.
Qed.
Lemma seen_refl : forall s, seen s s.
Proof. intros. unfold seen. auto. Qed.
Lemma seen_trans : forall a b c, seen a b -> seen b c -> seen a c.
Proof. intros a b c (A1 & A2 & A3 & A4 & A5) (B1 & B2 & B3 & B4 & B5). unfold seen. splits; congruence. Qed.

Lemma counting_nil : forall b, counting b 0 = [].
Proof. reflexivity. Qed.

Lemma delayed_dir_id : forall d, key_id (d_keys P (delayed_dir P d)) = key_id (d_keys P d) /\ d_seq P (delayed_dir P d) = d_seq P d /\
  d_packets P (delayed_dir P d) = d_packets P d.
Proof.
  intros d. unfold delayed_dir. destruct (d_keys P d) as [k|] eqn:E; [|rewrite E; auto].
  destruct (negb (k_comp_on k) && k_delayed k); [cbn|rewrite E]; auto.
Qed.
Lemma delayed_seen : forall s, seen s (enable_delayed_compress P s).
Proof.
  intros s. unfold seen, enable_delayed_compress, log, kid, sd. cbn. destruct (delayed_dir_id (t_dir P (s_tx P s))) as (A & B & C). auto.
Qed.

(** Emission of one packet. *)
Lemma u32_succ : forall a, u32 (u32 a + 1) = u32 (a + 1).
Proof. intros. unfold u32. now rewrite Zplus_mod_idemp_l. Qed.

Lemma wrapped_inv : forall h U s ty pl s' e, send_wrapped P s ty pl = (s', e) -> Inv h U s ->
  (ty = MSG_NEWKEYS -> x_out (s_x P s) <> None) ->
  (forall k, x_out (s_x P s) = Some k -> ty = MSG_NEWKEYS -> ~ In (Some (k_enc k)) U) ->
  InvE h U s' /\
  (e = None -> ty <> MSG_NEWKEYS -> Inv h U s' /\ kid s' = kid s) /\
  (e = None -> ty = MSG_NEWKEYS -> exists k, x_out (s_x P s) = Some k /\ Inv h (Some (k_enc k) :: U) s').
Proof.
  intros h U s ty pl s' e H HI Hx Hf. unfold send_wrapped in H.
  destruct (tx_emit P (x_initial (s_x P s)) (s_norekey P s) (s_tx P s) (repeat 0 5 ++ [ty] ++ pl)) as [t e1] eqn:Em.
  set (w := if negb (Nat.eqb (length (t_log P t)) (length (t_log P (s_tx P s)))) then s_wire P s ++ [(ty, pl)] else s_wire P s) in H.
  set (s1 := with_wire P (with_tx P s t) w) in H.
  assert (Ls1 : log s1 = t_log P t) by reflexivity.
  assert (Ds1 : sd s1 = t_dir P t) by reflexivity.
  assert (Ns1 : s_norekey P s1 = s_norekey P s) by reflexivity.
  apply emit_log in Em. destruct HI as [VC VP VU VM VH]. fold (log s) (sd s) in Em.
  destruct Em as [(Ene & El & Ek)|(f & El & Ek & Es & Eok & Eerr)].
  { destruct e1 as [e1|]; [|congruence]. injection H as <- <-. split; [|split; intros; congruence].
    split; [intros id; destruct (VP id) as (b & n & Q1 & Q2); exists b, n; rewrite Ls1, El; auto|intros id; rewrite Ls1, El; apply VU]. }
  destruct VC as (b & n & C1 & C2 & C3).
  assert (Cur : under (kid s) (log s1) = counting b (S n)).
  { rewrite Ls1, El, under_app, under_one, C1, counting_S. unfold kid at 1. replace (same_id _ _) with true by (symmetry; now apply same_id_eq). now rewrite C2. }
  assert (Oth : forall id, id <> kid s -> under id (log s1) = under id (log s)).
  { intros id Hid. rewrite Ls1, El, under_app, under_one. destruct (same_id (key_id (d_keys P (sd s))) id) eqn:E; [apply same_id_eq in E; exfalso; apply Hid; symmetry; exact E|]. now rewrite app_nil_r. }
  assert (Past1 : forall id, past_ok h s1 id).
  { intros id. destruct (same_id (kid s) id) eqn:E.
    - apply same_id_eq in E as <-. exists b, (S n). split; [assumption|]. intros Hh. destruct (C3 Hh). lia.
    - assert (id <> kid s) by (intros ->; rewrite (proj2 (same_id_eq _ _) eq_refl) in E; discriminate).
      unfold past_ok. rewrite (Oth id) by assumption. apply VP. }
  assert (Used1 : forall id, under id (log s1) <> [] -> In id U).
  { intros id. destruct (same_id (kid s) id) eqn:E; [apply same_id_eq in E as <-; intros; assumption|].
    rewrite (Oth id); [apply VU|]. intros ->; rewrite (proj2 (same_id_eq _ _) eq_refl) in E; discriminate. }
  assert (IE : InvE h U s1) by (split; assumption).
  destruct e1 as [e1|]; [injection H as <- <-; split; [assumption|split; intros; congruence]|].
  destruct (Eok eq_refl) as (Ep & En & Ei). clear Eok Eerr.
  assert (I1 : Inv h U s1).
  { split; auto.
    - exists b, (S n). replace (kid s1) with (kid s) by (unfold kid; rewrite Ds1, Ek; reflexivity). split; [assumption|].
      rewrite Ds1, Es, C2. split; [rewrite u32_succ; f_equal; lia|]. intros Hh. destruct (C3 Hh) as [P1 P2]. specialize (VH Hh).
      rewrite Ep, P1. rewrite P1 in En. specialize (En VH). unfold u32, U32 in *.
      destruct (Z.eq_dec (Z.of_nat n + 1) 4294967296) as [Q|Q]; [rewrite Q, Z.mod_same in En by lia; lia|].
      rewrite Z.mod_small by lia. lia.
    - replace (kid s1) with (kid s) by (unfold kid; rewrite Ds1, Ek; reflexivity). assumption. }
  destruct (ty =? MSG_NEWKEYS) eqn:Ety; cbn [andb] in H.
  - assert (ty = MSG_NEWKEYS) as Hty by lia. specialize (Hx Hty). specialize (fun k E => Hf k E Hty).
    set (s2 := if x_strict (s_x P s1) then with_tx P s1 (tx_dir P t (with_seq P (t_dir P t) 0)) else s1) in H.
    assert (E2 : log s2 = log s1 /\ s_norekey P s2 = s_norekey P s1 /\ s_x P s2 = s_x P s1) by (unfold s2; destruct (x_strict (s_x P s1)); auto).
    destruct E2 as (E2a & E2b & E2c). assert (E2d : s_x P s2 = s_x P s) by (rewrite E2c; reflexivity). unfold set_newkeys_out in H. rewrite E2d in H.
    destruct (x_out (s_x P s)) as [k|] eqn:Ex; [|congruence]. clear Hx. specialize (Hf k eq_refl).
    unfold install in H. destruct (p_init P (mac_started k) true) as [c|].
    2:{ injection H as <- <-. split; [|split; intros; congruence]. split; [intros id; unfold past_ok; rewrite E2a; apply Past1|intros id; rewrite E2a; apply Used1]. }
    cbv zeta in H.
    match type of H with (?x, _) = _ => set (s3 := x) in H end. injection H as <- <-.
    assert (L3 : log s3 = log s1) by (rewrite <- E2a; reflexivity).
    assert (K3 : kid s3 = Some (k_enc k)).
    { unfold kid, s3, sd. cbn [s_tx with_x with_tx tx_dir t_dir d_keys]. destruct (k_delayed (mac_started k) && s_auth P s2 && negb (k_comp_on (mac_started k))); reflexivity. }
    split; [split; [intros id; unfold past_ok; rewrite L3; apply Past1|intros id; rewrite L3; apply Used1]|].
    split; [intros; congruence|]. intros _ _. exists k. split; [reflexivity|]. split.
    + exists (d_seq P (sd s3)), 0%nat. rewrite K3, L3. split.
      * destruct (under (Some (k_enc k)) (log s1)) eqn:Q; [reflexivity|]. exfalso. apply Hf. apply Used1. rewrite Q. discriminate.
      * split; [|intros _; split; [reflexivity|lia]]. rewrite Z.add_0_r. unfold s3, sd, s2. cbn [s_tx with_x with_tx tx_dir t_dir d_seq].
        destruct (x_strict (s_x P s1)); cbn [s_tx with_x with_tx tx_dir t_dir d_seq with_seq]; [reflexivity|]. fold (sd s1). rewrite Ds1, Es. unfold u32. now rewrite Zmod_mod.
    + intros id. unfold past_ok. rewrite L3. apply Past1.
    + intros id. rewrite L3. right. now apply Used1.
    + rewrite K3. left. reflexivity.
    + intros Hh. change (s_norekey P s3) with (s_norekey P s2). rewrite E2b, Ns1. auto.
  - assert (ty <> MSG_NEWKEYS) as Hty by lia.
    destruct ((ty =? MSG_USERAUTH_SUCCESS) && s_server P s1); injection H as <- <-.
    + pose proof (delayed_seen s1) as D. assert (I2 : Inv h U (enable_delayed_compress P s1)) by (eapply inv_seen; eassumption).
      split; [now apply inv_e|]. split; [|intros; congruence]. intros _ _. split; [assumption|]. destruct D as (_ & D & _). rewrite D.
      unfold kid. now rewrite Ds1, Ek.
    + split; [assumption|]. split; [|intros; congruence]. intros _ _. split; [assumption|]. unfold kid. now rewrite Ds1, Ek.
Qed.

(** What one packet leaves alone, and what it adds to the wire. *)
Lemma wrapped_frame : forall s ty pl s' e, send_wrapped P s ty pl = (s', e) ->
  s_queue P s' = s_queue P s /\ s_rekeying P s' = s_rekeying P s /\ s_my P s' = s_my P s /\ s_norekey P s' = s_norekey P s /\
  s_server P s' = s_server P s /\ s_now P s' = s_now P s /\ s_rtime P s' = s_rtime P s /\
  x_done (s_x P s') = x_done (s_x P s) /\ x_initial (s_x P s') = x_initial (s_x P s) /\ x_sent (s_x P s') = x_sent (s_x P s) /\
  x_strict (s_x P s') = x_strict (s_x P s) /\ x_stage (s_x P s') = x_stage (s_x P s) /\
  ((s_wire P s' = s_wire P s /\ e <> None) \/ s_wire P s' = s_wire P s ++ [(ty, pl)]).
Proof.
  intros s ty pl s' e H. unfold send_wrapped in H.
  destruct (tx_emit P (x_initial (s_x P s)) (s_norekey P s) (s_tx P s) (repeat 0 5 ++ [ty] ++ pl)) as [t e1] eqn:Em.
  apply emit_log in Em.
  assert (W : (e1 <> None /\ (if negb (Nat.eqb (length (t_log P t)) (length (t_log P (s_tx P s)))) then s_wire P s ++ [(ty, pl)] else s_wire P s) = s_wire P s) \/
              (if negb (Nat.eqb (length (t_log P t)) (length (t_log P (s_tx P s)))) then s_wire P s ++ [(ty, pl)] else s_wire P s) = s_wire P s ++ [(ty, pl)]).
  { destruct Em as [(A & B & _)|(f & B & _)]; rewrite B; [left|right].
    - now rewrite Nat.eqb_refl.
    - rewrite app_length. cbn [length]. replace (Nat.eqb _ _) with false; [reflexivity|]. symmetry. apply Nat.eqb_neq. lia. }
  set (w := if negb (Nat.eqb (length (t_log P t)) (length (t_log P (s_tx P s)))) then s_wire P s ++ [(ty, pl)] else s_wire P s) in *. clearbody w. clear Em.
  destruct e1 as [e1|].
  { injection H as <- <-. cbn. splits; auto. destruct W as [[_ ->]| ->]; [left; split; [reflexivity|discriminate]|auto]. }
  assert (w = s_wire P s ++ [(ty, pl)]) as -> by (destruct W as [[W _]|W]; congruence).
  cbn zeta in H.
  set (s1 := with_wire P (with_tx P s t) (s_wire P s ++ [(ty, pl)])) in *.
  set (s2 := if (ty =? MSG_NEWKEYS) && x_strict (s_x P s1) then with_tx P s1 (tx_dir P t (with_seq P (t_dir P t) 0)) else s1) in *.
  assert (F2 : s_queue P s2 = s_queue P s /\ s_rekeying P s2 = s_rekeying P s /\ s_my P s2 = s_my P s /\ s_norekey P s2 = s_norekey P s /\
    s_server P s2 = s_server P s /\ s_now P s2 = s_now P s /\ s_rtime P s2 = s_rtime P s /\ s_x P s2 = s_x P s /\ s_wire P s2 = s_wire P s ++ [(ty, pl)])
    by (unfold s2; destruct ((ty =? MSG_NEWKEYS) && x_strict (s_x P s1)); cbn; auto 12).
  destruct F2 as (Q1 & Q2 & Q3 & Q4 & Q5 & Q6 & Q7 & Q8 & Q9).
  destruct (ty =? MSG_NEWKEYS).
  - unfold set_newkeys_out in H. destruct (install P s2 true _ _) as [d|]; injection H as <- <-.
    + cbn [with_x with_tx s_queue s_rekeying s_my s_norekey s_server s_now s_rtime s_x s_wire x_done x_initial x_sent x_strict x_stage]. rewrite Q8. splits; auto.
    + rewrite Q8. splits; auto.
  - destruct ((ty =? MSG_USERAUTH_SUCCESS) && s_server P s2); injection H as <- <-.
    + unfold enable_delayed_compress. cbn [with_auth with_rd with_tx s_queue s_rekeying s_my s_norekey s_server s_now s_rtime s_x s_wire]. rewrite Q8. splits; auto.
    + rewrite Q8. splits; auto.
Qed.

Definition no_nk (q : list (Z * list Z)) : Prop := Forall (fun m => fst m <> MSG_NEWKEYS) q.
Definition post (h : bool) (U : list (option (list Z))) (r : st * option err) : Prop :=
  InvE h U (fst r) /\ (snd r = None -> Inv h U (fst r) /\ no_nk (s_queue P (fst r))).

Lemma post_ok : forall h U s, Inv h U s -> no_nk (s_queue P s) -> post h U (s, None).
Proof. intros. split; cbn; [now apply inv_e|auto]. Qed.
Lemma post_err : forall h U s e, Inv h U s -> post h U (s, Some e).
Proof. intros. split; cbn; [now apply inv_e|discriminate]. Qed.

Lemma seen_same_tx : forall s s', s_tx P s' = s_tx P s -> s_norekey P s' = s_norekey P s -> seen s s'.
Proof. intros s s' H N. unfold seen, log, kid, sd. now rewrite H, N. Qed.

Lemma kexinit_post : forall h U s, Inv h U s -> no_nk (s_queue P s) -> post h U (send_kexinit P s).
Proof.
  intros h U s HI HQ. unfold send_kexinit. destruct (x_sent (s_x P s)); [now apply post_ok|].
  set (s1 := with_rekeying P _ true). destruct (send_wrapped P s1 MSG_KEXINIT (s_my P s)) as [s2 e] eqn:E.
  assert (I1 : Inv h U s1) by (eapply inv_seen; [|exact HI]; apply seen_same_tx; reflexivity).
  pose proof (wrapped_frame _ _ _ _ _ E) as (Q & _). pose proof (wrapped_inv _ _ _ _ _ _ _ E I1 ltac:(discriminate) ltac:(discriminate)) as (IE & I2 & _).
  destruct e as [e|]; [split; cbn [fst snd]; [assumption|discriminate]|]. destruct (I2 eq_refl ltac:(discriminate)) as [I3 _].
  apply post_ok; [eapply inv_seen; [|exact I3]; apply seen_same_tx; reflexivity|]. cbn [with_x s_queue]. rewrite Q. exact HQ.
Qed.
Lemma rekex_post : forall h U s, Inv h U s -> no_nk (s_queue P s) -> post h U (start_rekex P s).
Proof.
  intros h U s HI HQ. unfold start_rekex. destruct (negb (x_done (s_x P s))); [now apply post_err|].
  apply kexinit_post; [|exact HQ]. eapply inv_seen; [|exact HI]. apply seen_same_tx; reflexivity.
Qed.
Lemma flush_post : forall h U q s, Inv h U s -> no_nk q -> post h U (flush P s q).
Proof.
  induction q as [|[ty pl] q IH]; intros s HI HQ; cbn [flush].
  - apply post_ok; [|constructor]. eapply inv_seen; [|exact HI]. apply seen_same_tx; reflexivity.
  - destruct (need_rekeying P s (6 + zlen pl)).
    + apply rekex_post; [|exact HQ]. eapply inv_seen; [|exact HI]. apply seen_same_tx; reflexivity.
    + destruct (send_wrapped P (with_queue P s q) ty pl) as [s2 e] eqn:E. inversion HQ as [|? ? Hh Ht]; subst. cbn [fst] in Hh.
      assert (I1 : Inv h U (with_queue P s q)) by (eapply inv_seen; [|exact HI]; apply seen_same_tx; reflexivity).
      pose proof (wrapped_inv _ _ _ _ _ _ _ E I1 ltac:(congruence) ltac:(congruence)) as (IE & I2 & _).
      destruct e as [e|]; [split; cbn [fst snd]; [assumption|discriminate]|]. destruct (I2 eq_refl Hh) as [I3 _]. now apply IH.
Qed.
Lemma send2_post : forall h U s ty pl, Inv h U s -> no_nk (s_queue P s) -> ty <> MSG_NEWKEYS -> post h U (send2 P s ty pl).
Proof.
  intros h U s ty pl HI HQ Hty. unfold send2.
  set (need := negb (type_is_kex ty) && need_rekeying P s (6 + zlen pl)).
  assert (I1 : Inv h U (with_queue P s (s_queue P s ++ [(ty, pl)]))) by (eapply inv_seen; [|exact HI]; apply seen_same_tx; reflexivity).
  assert (Q1 : no_nk (s_queue P (with_queue P s (s_queue P s ++ [(ty, pl)])))) by (cbn; apply Forall_app; split; [exact HQ|constructor; [exact Hty|constructor]]).
  destruct ((need || s_rekeying P s) && negb (type_is_kex ty)).
  - destruct need; [now apply rekex_post|now apply post_ok].
  - destruct (send_wrapped P s ty pl) as [s2 e] eqn:E. pose proof (wrapped_frame _ _ _ _ _ E) as (Q & _).
    pose proof (wrapped_inv _ _ _ _ _ _ _ E HI ltac:(congruence) ltac:(congruence)) as (IE & I2 & _).
    destruct e as [e|]; [split; cbn [fst snd]; [assumption|discriminate]|]. destruct (I2 eq_refl Hty) as [I3 _].
    replace (ty =? MSG_NEWKEYS) with false by lia. apply post_ok; [assumption|]. now rewrite Q.
Qed.
Lemma check_post : forall h U s, Inv h U s -> no_nk (s_queue P s) -> post h U (check_rekey P s).
Proof. intros h U s HI HQ. unfold check_rekey. destruct (need_rekeying P s 0); [now apply rekex_post|now apply post_ok]. Qed.

Lemma post_mono : forall h U U' r, incl U U' -> post h U r -> post h U' r.
Proof.
  intros h U U' r HU [[A B] C]. split; [split; [exact A|intros; apply HU; now apply B]|].
  intros E. destruct (C E) as [[X1 X2 X3 X4 X5] Q]. split; [split; auto|exact Q].
Qed.

Lemma newkeys_post : forall h U s o i, Inv h U s -> no_nk (s_queue P s) -> ~ In (Some (k_enc o)) U -> post h (Some (k_enc o) :: U) (send_newkeys P s o i).
Proof.
  intros h U s o i HI HQ Hf. unfold send_newkeys.
  assert (Dflt : post h (Some (k_enc o) :: U) (s, None)) by (eapply post_mono; [|apply post_ok; eassumption]; apply incl_tl, incl_refl).
  destruct (x_stage (s_x P s)); [exact Dflt| |exact Dflt].
  set (s1 := with_x P s _). assert (I1 : Inv h U s1) by (eapply inv_seen; [|exact HI]; apply seen_same_tx; reflexivity).
  assert (G : post h (Some (k_enc o) :: U) (send2 P s1 MSG_NEWKEYS [])).
  { unfold send2. replace (type_is_kex MSG_NEWKEYS) with true by reflexivity. cbn [negb andb orb]. rewrite andb_false_r.
    destruct (send_wrapped P s1 MSG_NEWKEYS []) as [s2 e] eqn:E. pose proof (wrapped_frame _ _ _ _ _ E) as (Q & _).
    assert (Xo : x_out (s_x P s1) = Some o) by reflexivity.
    destruct (wrapped_inv _ _ _ _ _ _ _ E I1) as (IE & _ & I2); [rewrite Xo; discriminate|intros k Hk _; rewrite Xo in Hk; congruence|].
    destruct e as [e|].
    - split; cbn [fst snd]; [|discriminate]. destruct IE as [IE1 IE2]. split; [exact IE1|]. intros id Hid. right. now apply IE2.
    - destruct (I2 eq_refl eq_refl) as (k & Hk & I3). assert (k = o) as -> by congruence.
      change (MSG_NEWKEYS =? MSG_NEWKEYS) with true. cbv iota.
      apply flush_post; [eapply inv_seen; [|exact I3]; apply seen_same_tx; reflexivity|].
      cbn [with_time with_rekeying s_queue]. rewrite Q. exact HQ. }
  destruct (send2 P s1 MSG_NEWKEYS []) as [s2 [e|]].
  - destruct G as [G _]. split; cbn [fst snd] in *; [exact G|discriminate].
  - destruct G as [_ G]. destruct (G eq_refl) as [G1 G2]. apply post_ok; [|exact G2]. eapply inv_seen; [|exact G1]. apply seen_same_tx; reflexivity.
Qed.

Lemma receive_post : forall h U s ty len, Inv h U s -> no_nk (s_queue P s) -> post h U (receive_packet P s ty len).
Proof.
  intros h U s ty len HI HQ. unfold receive_packet.
  destruct (count_packet P _ _ _ len) as [d [e|]].
  - apply post_err. eapply inv_seen; [|exact HI]. apply seen_same_tx; reflexivity.
  - set (s2 := if (ty =? MSG_USERAUTH_SUCCESS) && negb (s_server P (with_rd P s d)) then enable_delayed_compress P (with_rd P s d) else with_rd P s d).
    assert (S2 : seen s s2 /\ s_queue P s2 = s_queue P s).
    { unfold s2. destruct ((ty =? MSG_USERAUTH_SUCCESS) && negb (s_server P (with_rd P s d))).
      - split; [|reflexivity]. eapply seen_trans; [|apply delayed_seen]. apply seen_same_tx; reflexivity.
      - split; [apply seen_same_tx; reflexivity|reflexivity]. }
    destruct S2 as [S2 Q2]. apply check_post.
    + eapply inv_seen; [|exact HI]. eapply seen_trans; [exact S2|]. destruct ((ty =? MSG_NEWKEYS) && _); [apply seen_same_tx; reflexivity|apply seen_refl].
    + destruct ((ty =? MSG_NEWKEYS) && _); [change (no_nk (s_queue P s2))|]; now rewrite Q2.
Qed.

Lemma proterr_post : forall h U s sq, Inv h U s -> no_nk (s_queue P s) -> post h U (protocol_error P s sq).
Proof.
  intros h U s sq HI HQ. unfold protocol_error. destruct (_ && _); [now apply post_err|]. apply send2_post; auto. discriminate.
Qed.

Lemma with_x_inv : forall h U s x, Inv h U s -> Inv h U (with_x P s x).
Proof. intros. eapply inv_seen; [|eassumption]. apply seen_same_tx; reflexivity. Qed.

Lemma step_post : forall h U s e, Inv h U s -> no_nk (s_queue P s) ->
  (h = true -> e <> EHandover) ->
  (forall o i, e = ENewkeys o i -> ~ In (Some (k_enc o)) U) ->
  post h (match e with ENewkeys o _ => Some (k_enc o) :: U | _ => U end) (step P s e).
Proof.
  intros h U s e HI HQ Hh Hf. destruct e as [|ty pl|n| | |o i|ty len|len strict|len|dt|]; cbn [step].
  - destruct (x_initial (s_x P s)); [now apply kexinit_post|now apply post_ok].
  - destruct ((ty =? MSG_KEXINIT) || (ty =? MSG_NEWKEYS)) eqn:E; [now apply post_ok|]. apply send2_post; auto. lia.
  - apply post_ok; [|exact HQ]. eapply inv_seen; [|exact HI]. unfold seen, log, kid, sd. cbn. auto.
  - destruct (is_rekeying P s); [now apply post_ok|now apply rekex_post].
  - now apply check_post.
  - apply newkeys_post; auto. eapply Hf. reflexivity.
  - destruct ((ty =? MSG_KEXINIT) || (ty =? MSG_NEWKEYS)); [now apply post_ok|now apply receive_post].
  - pose proof (receive_post h U s MSG_KEXINIT len HI HQ) as [R1 R2]. destruct (receive_packet P s MSG_KEXINIT len) as [s1 [e|]]; cbn [fst snd] in *.
    + split; cbn [fst snd]; [assumption|discriminate].
    + destruct (R2 eq_refl) as [I1 Q1]. unfold input_kexinit. destruct (x_stage (s_x P s1)); [|now apply proterr_post..].
      pose proof (kexinit_post h U s1 I1 Q1) as [K1 K2]. destruct (send_kexinit P s1) as [s2 [e|]]; cbn [fst snd] in *.
      * split; cbn [fst snd]; [assumption|discriminate].
      * destruct (K2 eq_refl) as [I2 Q2]. apply post_ok; [now apply with_x_inv|exact Q2].
  - pose proof (receive_post h U s MSG_NEWKEYS len HI HQ) as [R1 R2]. destruct (receive_packet P s MSG_NEWKEYS len) as [s1 [e|]]; cbn [fst snd] in *.
    + split; cbn [fst snd]; [assumption|discriminate].
    + destruct (R2 eq_refl) as [I1 Q1]. unfold input_newkeys. destruct (x_stage (s_x P s1)); [now apply proterr_post..|].
      unfold set_newkeys_in. destruct (install P s1 false _ _) as [d|]; [|now apply post_err].
      apply post_ok; [|exact Q1]. eapply inv_seen; [|exact I1]. apply seen_same_tx; reflexivity.
  - apply post_ok; [|exact HQ]. eapply inv_seen; [|exact HI]. apply seen_same_tx; reflexivity.
  - destruct (is_rekeying P s); [now apply post_ok|]. unfold handover.
    destruct (d_keys P (t_dir P (s_tx P s))) as [k|] eqn:Ek; [|now apply post_err]. destruct (d_keys P (s_rd P s)); [|now apply post_err].
    apply post_ok; [|exact HQ]. destruct h; [exfalso; now apply Hh|].
    destruct HI as [(b & n & A1 & A2 & _) B C D E].
    destruct (delayed_dir_id (mkDir P (d_keys P (t_dir P (s_tx P s))) (d_ctx P (t_dir P (s_tx P s))) (d_seq P (t_dir P (s_tx P s))) 0 0 (d_bytes P (t_dir P (s_tx P s))) (max_blocks (d_block P (t_dir P (s_tx P s))) (s_limit P s)) (d_z P (t_dir P (s_tx P s))))) as (D1 & D2 & D3). cbn [d_keys d_seq d_packets] in D1, D2, D3.
    split.
    + exists b, n. unfold log, kid, sd in *. cbn [with_auth with_time with_rd with_tx s_tx tx_dir t_log t_dir] in *. unfold handed. rewrite D1, D2. split; [exact A1|]. split; [exact A2|discriminate].
    + exact B.
    + exact C.
    + unfold kid, sd in *. cbn [with_auth with_time with_rd with_tx s_tx tx_dir t_log t_dir] in *. unfold handed. rewrite D1. exact D.
    + discriminate.
Qed.

Lemma run_post : forall h es U s, Inv h U s -> no_nk (s_queue P s) ->
  (h = true -> no_handover es) -> NoDup (produced es) -> (forall k, In k (produced es) -> ~ In (Some k) U) ->
  InvE h (map Some (produced es) ++ U) (fst (run P s es)).
Proof.
  intros h. induction es as [|e es IH]; intros U s HI HQ Hh Hn Hd; cbn [run].
  - cbn. now apply inv_e.
  - assert (Hstep : post h (match e with ENewkeys o _ => Some (k_enc o) :: U | _ => U end) (step P s e)).
    { apply step_post; auto.
      - intros H Q. apply (Hh H). left. now symmetry.
      - intros o i ->. apply Hd. left. reflexivity. }
    assert (Hincl : incl (match e with ENewkeys o _ => Some (k_enc o) :: U | _ => U end) (map Some (produced (e :: es)) ++ U)).
    { destruct e; cbn [produced]; try (apply incl_appr, incl_refl). cbn [map app]. intros x [<-|Hx]; [now left|right; apply in_or_app; now right]. }
    destruct (step P s e) as [s1 [x|]]; destruct Hstep as [[A B] C]; cbn [fst snd] in *.
    + split; [exact A|]. intros id Hid. apply Hincl. now apply B.
    + destruct (C eq_refl) as [I1 Q1].
      assert (R : InvE h (map Some (produced es) ++ match e with ENewkeys o _ => Some (k_enc o) :: U | _ => U end) (fst (run P s1 es))).
      { apply IH; auto.
        - intros H Q. apply (Hh H). now right.
        - destruct e; auto. cbn [produced] in Hn. now inversion Hn.
        - intros k Hk. destruct e; cbn [produced] in *; try (apply Hd; exact Hk).
          intros [Q|Q]; [injection Q as Q; subst k; inversion Hn; contradiction|]. apply (Hd k); [now right|exact Q]. }
      destruct R as [R1 R2]. split; [exact R1|]. intros id Hid. specialize (R2 id Hid).
      destruct e; cbn [produced] in *; auto. cbn [map app]. apply in_app_iff in R2 as [R2|[<-|R2]]; [right; apply in_or_app; now left|now left|right; apply in_or_app; now right].
Qed.

Lemma start_inv : forall server norekey limit interval my c, 
  Inv (negb norekey) [None] (start P server norekey limit interval my c).
Proof.
  intros. split.
  - exists 0, 0%nat. cbn. split; [reflexivity|]. split; [reflexivity|]. intros _. lia.
  - intros id. exists 0, 0%nat. cbn. split; [reflexivity|lia].
  - intros id H. exfalso. now apply H.
  - left. reflexivity.
  - destruct norekey; [discriminate|reflexivity].
Qed.

Lemma inv_weaken : forall h U s, Inv h U s -> Inv false U s.
Proof.
  intros h U s [(b & n & A1 & A2 & _) B C D E]. split; auto; try discriminate.
  - exists b, n. splits; auto. discriminate.
  - intros id. destruct (B id) as (b' & n' & B1 & _). exists b', n'. split; [exact B1|discriminate].
Qed.

(** From "consecutive under every key" to "no pair twice". *)
Lemma counting_nodup : forall b n, Z.of_nat n <= 4294967296 -> NoDup (counting b n).
Proof.
  intros b n Hn. unfold counting. apply NoDup_nth with (d := 0). intros i j Hi Hj H. rewrite map_length, seq_length in *.
  assert (N : forall k, (k < n)%nat -> nth k (map (fun j => u32 (b + Z.of_nat j)) (seq 0 n)) 0 = u32 (b + Z.of_nat k)).
  { intros k Hk. rewrite (nth_indep _ _ (u32 (b + Z.of_nat 0))) by (rewrite map_length, seq_length; lia).
    rewrite (map_nth (fun j => u32 (b + Z.of_nat j))), seq_nth by lia. reflexivity. }
  rewrite !N in H by assumption. unfold u32, U32 in H.
  assert (Q : (Z.of_nat i - Z.of_nat j) mod 4294967296 = 0).
  { replace (Z.of_nat i - Z.of_nat j) with ((b + Z.of_nat i) - (b + Z.of_nat j)) by lia. rewrite Zminus_mod, H, Z.sub_diag. reflexivity. }
  apply Z.mod_divide in Q as [q Q]; [|lia]. nia.
Qed.
Lemma under_nonces : forall id sq l, In (id, sq) (nonces l) <-> In sq (under id l).
Proof.
  intros id sq. induction l as [|[[k s0] f] l IH]; [reflexivity|]. change ((k, s0, f) :: l) with ([(k, s0, f)] ++ l). rewrite under_app, under_one.
  cbn [app nonces map]. rewrite in_app_iff, <- IH. cbn [In]. destruct (same_id (key_id k) id) eqn:E.
  - apply same_id_eq in E as <-. cbn [In]. split; [intros [H|H]; [injection H as <-; auto|auto]|intros [[<-|[]]|H]; auto].
  - cbn [In]. split; [intros [H|H]; [injection H as H _; apply same_id_eq in H; congruence|auto]|intros [[]|H]; auto].
Qed.
Lemma nodup_nonces : forall l, (forall id, NoDup (under id l)) -> NoDup (nonces l).
Proof.
  induction l as [|[[k s0] f] l IH]; intros H; [constructor|]. cbn [nonces map]. constructor.
  - intros Q. apply under_nonces in Q. specialize (H (key_id k)). change ((k, s0, f) :: l) with ([(k, s0, f)] ++ l) in H.
    rewrite under_app, under_one in H. replace (same_id _ _) with true in H by (symmetry; now apply same_id_eq). cbn [app] in H. inversion H; contradiction.
  - apply IH. intros id. specialize (H id). change ((k, s0, f) :: l) with ([(k, s0, f)] ++ l) in H. rewrite under_app in H.
    rewrite under_one in H. destruct (same_id (key_id k) id); [now inversion H|exact H].
Qed.

(** * C23: what passes during an exchange *)

Lemma ordinary_kex : forall m, ordinary m = negb (type_is_kex (fst m)).
Proof. intros [ty pl]. reflexivity. Qed.
Lemma kex_transport : forall ty, type_is_kex ty = true -> transport ty.
Proof. intros ty H. unfold type_is_kex, MSG_SERVICE_REQUEST, MSG_SERVICE_ACCEPT, MSG_EXT_INFO in H. unfold transport. lia. Qed.
Lemma quiet_app : forall a c b, quiet c (a ++ b) <-> quiet c a /\ quiet (closed_after c a) b.
Proof.
  induction a as [|ty a IH]; intros c b; cbn [app quiet closed_after fold_left]; [tauto|]. rewrite IH. unfold closed_after. tauto.
Qed.
Lemma closed_app : forall a c b, closed_after c (a ++ b) = closed_after (closed_after c a) b.
Proof. intros. unfold closed_after. apply fold_left_app. Qed.
Lemma closed_ordinary : forall (q : list (Z * list Z)) c, Forall (fun m => type_is_kex (fst m) = false) q -> closed_after c (map fst q) = c.
Proof.
  induction q as [|[ty pl] q IH]; intros c H; [reflexivity|]. inversion H as [|? ? H1 H2]; subst. cbn [fst] in H1. unfold closed_after in *. cbn [map fst fold_left].
  replace (ty =? 20) with false by (unfold type_is_kex, MSG_SERVICE_REQUEST, MSG_SERVICE_ACCEPT, MSG_EXT_INFO in H1; lia).
  replace (ty =? 21) with false by (unfold type_is_kex, MSG_SERVICE_REQUEST, MSG_SERVICE_ACCEPT, MSG_EXT_INFO in H1; lia). now apply IH.
Qed.

Definition types (s : st) : list Z := map fst (s_wire P s).
Definition sane (s : st) : Prop :=
  match x_stage (s_x P s) with
  | AwaitKexinit => (x_done (s_x P s) = true /\ s_rekeying P s = false /\ x_sent (s_x P s) = false) \/ (x_done (s_x P s) = false /\ s_rekeying P s = true)
  | Method => x_done (s_x P s) = false /\ s_rekeying P s = true /\ x_sent (s_x P s) = true
  | AwaitNewkeys => x_done (s_x P s) = false /\ s_rekeying P s = false /\ x_sent (s_x P s) = true
  end.
Definition held (s : st) : Prop := Forall (fun m => type_is_kex (fst m) = false) (s_queue P s).
Definition all_of (s : st) : list (Z * list Z) := filter ordinary (s_wire P s) ++ s_queue P s.
(** Everything but the emptiness of the queue. *)
Record G0 (s : st) : Prop := mkG0 {
  g_quiet : quiet true (types s);
  g_closed : closed_after true (types s) = s_rekeying P s;
  g_held : held s
}.
Record G (s : st) : Prop := mkG {
  g_0 : G0 s;
  g_sane : sane s;
  g_empty : s_rekeying P s = false -> s_queue P s = []
}.

Lemma wrapped_quiet : forall s ty pl s' e, send_wrapped P s ty pl = (s', e) ->
  quiet true (types s) -> (type_is_kex ty = false -> closed_after true (types s) = false) ->
  quiet true (types s') /\ (e = None -> s_wire P s' = s_wire P s ++ [(ty, pl)]).
Proof.
  intros s ty pl s' e H Hq Hc. apply wrapped_frame in H as (_ & _ & _ & _ & _ & _ & _ & _ & _ & _ & _ & _ & [[W E]|W]); unfold types in *; rewrite W.
  - split; [assumption|congruence].
  - split; [|auto]. rewrite map_app. apply quiet_app. split; [assumption|]. cbn [map fst quiet]. split; [|exact I].
    intros C. destruct (type_is_kex ty) eqn:E; [now apply kex_transport|]. rewrite Hc in C by reflexivity. discriminate.
Qed.
Lemma closed_one : forall s ty pl s', s_wire P s' = s_wire P s ++ [(ty, pl)] ->
  closed_after true (types s') = if ty =? 20 then true else if ty =? 21 then false else closed_after true (types s).
Proof. intros s ty pl s' H. unfold types. rewrite H, map_app, closed_app. reflexivity. Qed.
Lemma all_one : forall s ty pl s', s_wire P s' = s_wire P s ++ [(ty, pl)] -> s_queue P s' = s_queue P s ->
  type_is_kex ty = true -> all_of s' = all_of s.
Proof. intros s ty pl s' H Q K. unfold all_of. rewrite H, Q, filter_app. cbn [filter]. rewrite ordinary_kex. cbn [fst]. rewrite K. cbn [negb]. now rewrite app_nil_r. Qed.

Definition gpost (s : st) (sub : list (Z * list Z)) (r : st * option err) : Prop :=
  quiet true (types (fst r)) /\ (snd r = None -> G (fst r) /\ all_of (fst r) = all_of s ++ filter ordinary sub).
Lemma gpost_ok : forall s, G s -> gpost s [] (s, None).
Proof. intros s H. split; cbn; [apply (g_quiet _ (g_0 _ H))|]. intros _. split; [assumption|]. now rewrite app_nil_r. Qed.
Lemma gpost_err : forall s sub s' e, quiet true (types s') -> gpost s sub (s', Some e).
Proof. intros. split; cbn; [assumption|discriminate]. Qed.

(** KEXINIT: from a state that may hold packets although no exchange runs. *)
Lemma kexinit_g : forall s, G0 s -> x_sent (s_x P s) = false -> x_stage (s_x P s) = AwaitKexinit ->
  quiet true (types (fst (send_kexinit P s))) /\
  (snd (send_kexinit P s) = None -> G (fst (send_kexinit P s)) /\ all_of (fst (send_kexinit P s)) = all_of s /\
     x_stage (s_x P (fst (send_kexinit P s))) = AwaitKexinit /\ x_sent (s_x P (fst (send_kexinit P s))) = true /\
     x_done (s_x P (fst (send_kexinit P s))) = false /\ s_rekeying P (fst (send_kexinit P s)) = true).
Proof.
  intros s [Q C H] Hs Ha. unfold send_kexinit. rewrite Hs. set (s1 := with_rekeying P _ true).
  destruct (send_wrapped P s1 MSG_KEXINIT (s_my P s)) as [s2 e] eqn:E.
  destruct (wrapped_quiet _ _ _ _ _ E Q ltac:(discriminate)) as [Q2 W].
  pose proof (wrapped_frame _ _ _ _ _ E) as (F1 & F2 & _ & _ & _ & _ & _ & F3 & _ & F4 & _ & F5 & _).
  destruct e as [e|]; cbn [fst snd]; [split; [assumption|discriminate]|]. specialize (W eq_refl). split; [exact Q2|]. intros _.
  assert (A : all_of s2 = all_of s) by (rewrite (all_one s1 MSG_KEXINIT (s_my P s) s2 W F1 eq_refl); reflexivity).
  split.
  - split.
    + split; [exact Q2| |].
      * change (types (with_x P s2 _)) with (types s2). change (s_rekeying P (with_x P s2 _)) with (s_rekeying P s2).
        rewrite (closed_one _ _ _ _ W), F2. reflexivity.
      * unfold held. cbn [with_x s_queue]. rewrite F1. exact H.
    + unfold sane. cbn [with_x s_x x_stage x_done x_sent s_rekeying]. rewrite F5, F3, F2. cbn. rewrite Ha. right. auto.
    + cbn [with_x s_rekeying s_queue]. rewrite F2. cbn. discriminate.
  - split; [exact A|]. cbn [with_x s_x x_stage x_done x_sent s_rekeying]. rewrite F5, F3, F2. cbn. auto.
Qed.

Lemma sane_rest : forall s, sane s -> x_done (s_x P s) = true -> s_rekeying P s = false /\ x_sent (s_x P s) = false /\ x_stage (s_x P s) = AwaitKexinit.
Proof. intros s H D. unfold sane in H. destruct (x_stage (s_x P s)); intuition congruence. Qed.

Lemma rekex_g : forall s, G0 s -> sane s -> 
  quiet true (types (fst (start_rekex P s))) /\ (snd (start_rekex P s) = None -> G (fst (start_rekex P s)) /\ all_of (fst (start_rekex P s)) = all_of s).
Proof.
  intros s H0 HS. unfold start_rekex. destruct (x_done (s_x P s)) eqn:D; cbn [negb]; [|cbn [fst snd]; split; [apply (g_quiet _ H0)|discriminate]].
  destruct (sane_rest _ HS D) as (R1 & R2 & R3).
  set (s1 := with_x P s _). assert (H1 : G0 s1) by (destruct H0; split; assumption).
  destruct (kexinit_g s1 H1) as [A B]; [exact R2|exact R3|]. split; [exact A|]. intros E. destruct (B E) as (B1 & B2 & _). split; [exact B1|]. rewrite B2. reflexivity.
Qed.

Lemma need_done : forall s len, need_rekeying P s len = true -> x_done (s_x P s) = true /\ s_rekeying P s = false.
Proof.
  intros s len H. unfold need_rekeying in H. destruct (negb (s_auth P s)); [discriminate|]. destruct (is_rekeying P s) eqn:E; [discriminate|].
  unfold is_rekeying in E. destruct (s_rekeying P s), (x_done (s_x P s)); cbn in E; auto; discriminate.
Qed.

Lemma flush_g : forall q s, Forall (fun m => type_is_kex (fst m) = false) q ->
  quiet true (types s) -> closed_after true (types s) = false -> x_done (s_x P s) = false -> s_rekeying P s = false ->
  quiet true (types (fst (flush P s q))) /\
  (snd (flush P s q) = None ->
     s_wire P (fst (flush P s q)) = s_wire P s ++ q /\ s_queue P (fst (flush P s q)) = [] /\ s_rekeying P (fst (flush P s q)) = false /\
     x_done (s_x P (fst (flush P s q))) = false /\ x_sent (s_x P (fst (flush P s q))) = x_sent (s_x P s) /\ x_stage (s_x P (fst (flush P s q))) = x_stage (s_x P s)).
Proof.
  induction q as [|[ty pl] q IH]; intros s Hq Q C D R; cbn [flush].
  - cbn. split; [assumption|]. intros _. rewrite app_nil_r. auto 10.
  - destruct (need_rekeying P s (6 + zlen pl)) eqn:N; [apply need_done in N as [N _]; congruence|].
    destruct (send_wrapped P (with_queue P s q) ty pl) as [s2 e] eqn:E. inversion Hq as [|? ? H1 H2]; subst. cbn [fst] in H1.
    destruct (wrapped_quiet _ _ _ _ _ E Q (fun _ => C)) as [Q2 W].
    pose proof (wrapped_frame _ _ _ _ _ E) as (F1 & F2 & _ & _ & _ & _ & _ & F3 & _ & F4 & _ & F5 & _).
    destruct e as [e|]; [cbn [fst snd]; split; [assumption|discriminate]|]. specialize (W eq_refl).
    destruct (IH s2 H2 Q2) as [A B].
    + rewrite (closed_one _ _ _ _ W). change (types (with_queue P s q)) with (types s). rewrite C.
      unfold type_is_kex, MSG_SERVICE_REQUEST, MSG_SERVICE_ACCEPT, MSG_EXT_INFO in H1.
      replace (ty =? 20) with false by lia. replace (ty =? 21) with false by lia. reflexivity.
    + rewrite F3. exact D.
    + rewrite F2. exact R.
    + split; [exact A|]. intros Ee. destruct (B Ee) as (B1 & B2 & B3 & B4 & B5 & B6). rewrite B1, W, B5, B6, F4, F5, <- app_assoc. cbn. auto 10.
Qed.

Lemma send2_g : forall s ty pl, G s -> ty <> MSG_NEWKEYS -> ty <> MSG_KEXINIT -> gpost s [(ty, pl)] (send2 P s ty pl).
Proof.
  intros s ty pl [[Q C H] S E0] N1 N2. unfold send2.
  set (need := negb (type_is_kex ty) && need_rekeying P s (6 + zlen pl)).
  destruct ((need || s_rekeying P s) && negb (type_is_kex ty)) eqn:B.
  - assert (K : type_is_kex ty = false) by (destruct (type_is_kex ty); [rewrite andb_false_r in B; discriminate|reflexivity]).
    set (s1 := with_queue P s (s_queue P s ++ [(ty, pl)])).
    assert (H1 : G0 s1).
    { split; [exact Q|exact C|]. unfold held, s1. cbn [with_queue s_queue]. apply Forall_app. split; [exact H|]. constructor; [exact K|constructor]. }
    assert (A1 : all_of s1 = all_of s ++ filter ordinary [(ty, pl)]).
    { unfold all_of, s1. cbn [with_queue s_queue s_wire filter]. rewrite ordinary_kex. cbn [fst]. rewrite K. cbn [negb]. now rewrite app_assoc. }
    destruct need eqn:Nd.
    + destruct (rekex_g s1 H1 S) as [R1 R2]. split; [exact R1|]. intros Ee. destruct (R2 Ee) as [R3 R4]. split; [exact R3|]. now rewrite R4.
    + split; cbn [fst snd]; [exact Q|]. intros _. split; [|exact A1]. cbn [orb] in B. apply andb_prop in B as [B _].
      split; [exact H1|exact S|]. intros F. change (s_rekeying P s1) with (s_rekeying P s) in F. congruence.
  - assert (X : type_is_kex ty = false -> s_rekeying P s = false) by (intros K; rewrite K in B; cbn [negb] in B; rewrite andb_true_r in B; destruct (s_rekeying P s); [rewrite orb_true_r in B; discriminate|reflexivity]).
    destruct (send_wrapped P s ty pl) as [s2 e] eqn:E.
    destruct (wrapped_quiet _ _ _ _ _ E Q ltac:(intros K; rewrite C; auto)) as [Q2 W].
    pose proof (wrapped_frame _ _ _ _ _ E) as (F1 & F2 & _ & _ & _ & _ & _ & F3 & _ & F4 & _ & F5 & _).
    destruct e as [e|]; [now apply gpost_err|]. specialize (W eq_refl). replace (ty =? MSG_NEWKEYS) with false by lia.
    split; cbn [fst snd]; [exact Q2|]. intros _. split.
    + split.
      * split; [exact Q2| |unfold held; now rewrite F1]. rewrite (closed_one _ _ _ _ W), F2. unfold MSG_KEXINIT, MSG_NEWKEYS in *.
        replace (ty =? 20) with false by lia. replace (ty =? 21) with false by lia. exact C.
      * unfold sane in *. rewrite F5, F3, F4, F2. exact S.
      * rewrite F1, F2. exact E0.
    + unfold all_of. rewrite W, F1, filter_app. cbn [filter]. rewrite ordinary_kex. cbn [fst]. destruct (type_is_kex ty) eqn:K; cbn [negb].
      * now rewrite !app_nil_r.
      * rewrite (E0 (X eq_refl)), !app_nil_r. reflexivity.
Qed.

Lemma check_g : forall s, G s -> gpost s [] (check_rekey P s).
Proof.
  intros s H. unfold check_rekey. destruct (need_rekeying P s 0); [|now apply gpost_ok].
  destruct (rekex_g s (g_0 _ H) (g_sane _ H)) as [A B]. split; [exact A|]. intros E. destruct (B E) as [B1 B2]. split; [exact B1|]. cbn [filter]. now rewrite app_nil_r.
Qed.

Lemma newkeys_g : forall s o i, G s -> gpost s [] (send_newkeys P s o i).
Proof.
  intros s o i HG. unfold send_newkeys. destruct (x_stage (s_x P s)) eqn:St; [now apply gpost_ok| |now apply gpost_ok].
  set (s1 := with_x P s _). destruct HG as [[Q C H] S E0].
  assert (Sn : x_done (s_x P s) = false /\ s_rekeying P s = true /\ x_sent (s_x P s) = true) by (unfold sane in S; rewrite St in S; exact S).
  destruct Sn as (S1 & S2 & S3).
  unfold send2. change (type_is_kex MSG_NEWKEYS) with true. cbn [negb andb]. rewrite andb_false_r.
  destruct (send_wrapped P s1 MSG_NEWKEYS []) as [s2 e] eqn:E.
  destruct (wrapped_quiet _ _ _ _ _ E Q ltac:(discriminate)) as [Q2 W].
  pose proof (wrapped_frame _ _ _ _ _ E) as (F1 & F2 & _ & _ & _ & _ & _ & F3 & _ & F4 & _ & F5 & _).
  destruct e as [e|]; [now apply gpost_err|]. specialize (W eq_refl).
  change (MSG_NEWKEYS =? MSG_NEWKEYS) with true. cbv iota. cbv zeta.
  cbn [with_rekeying s_now]. fold (with_rekeying P s2 false). set (s3 := with_time P (with_rekeying P s2 false) (s_now P s2) (s_now P s2)).
  change (s_queue P s3) with (s_queue P s2).
  destruct (flush_g (s_queue P s2) s3) as [A B].
  - rewrite F1. exact H.
  - exact Q2.
  - change (types s3) with (types s2). rewrite (closed_one _ _ _ _ W). reflexivity.
  - change (x_done (s_x P s2) = false). rewrite F3. exact S1.
  - reflexivity.
  - destruct (flush P s3 (s_queue P s2)) as [s4 [e|]]; cbn [fst snd] in *; [now apply gpost_err|].
    destruct (B eq_refl) as (B1 & B2 & B3 & B4 & B5 & B6).
    split; cbn [fst snd]; [exact A|]. intros _. split.
    + split.
      * split; [exact A| |].
        -- change (closed_after true (types s4) = s_rekeying P s4). unfold types. rewrite B1, map_app, closed_app, B3.
           change (map fst (s_wire P s3)) with (types s2). rewrite (closed_one _ _ _ _ W). apply closed_ordinary. rewrite F1. exact H.
        -- unfold held. cbn [with_x s_queue]. rewrite B2. constructor.
      * unfold sane. cbn [with_x s_x x_stage x_done x_sent s_rekeying]. rewrite B4, B3, B5. split; [reflexivity|]. split; [reflexivity|].
        change (x_sent (s_x P s2) = true). rewrite F4. exact S3.
      * intros _. exact B2.
    + cbn [filter]. rewrite app_nil_r. unfold all_of. cbn [with_x s_wire s_queue]. rewrite B1, B2, app_nil_r. change (s_wire P s3) with (s_wire P s2).
      rewrite W, !filter_app. cbn [filter]. change (ordinary (MSG_NEWKEYS, [])) with false. cbn iota. rewrite app_nil_r, F1. f_equal.
      change (filter ordinary (s_queue P s) = s_queue P s). clear -H. unfold held in H. induction (s_queue P s) as [|m q IH]; [reflexivity|].
      inversion H as [|? ? H1 H2]; subst. cbn [filter]. rewrite ordinary_kex, H1. cbn [negb]. f_equal. now apply IH.
Qed.

(** Steps that touch neither wire, queue nor exchange state. *)
Lemma g_same : forall s s', s_wire P s' = s_wire P s -> s_queue P s' = s_queue P s -> s_rekeying P s' = s_rekeying P s -> s_x P s' = s_x P s -> G s -> G s' /\ all_of s' = all_of s.
Proof.
  intros s s' W Qu R X [[Q C H] S E]. split; [|unfold all_of; now rewrite W, Qu].
  split; [split|..]; unfold types, held, sane in *; rewrite ?W, ?Qu, ?R, ?X; assumption.
Qed.
Lemma gpost_from : forall s s1 sub r, all_of s1 = all_of s -> gpost s1 sub r -> gpost s sub r.
Proof. intros s s1 sub r A [B C]. split; [exact B|]. intros E. rewrite <- A. now apply C. Qed.

Lemma receive_g : forall s ty len, G s -> gpost s [] (receive_packet P s ty len).
Proof.
  intros s ty len HG. unfold receive_packet. destruct (count_packet P _ _ _ len) as [d [e|]].
  - apply gpost_err. apply (g_quiet _ (g_0 _ HG)).
  - match goal with |- gpost s [] (check_rekey P ?x) => set (s3 := x) end.
    assert (K : s_wire P s3 = s_wire P s /\ s_queue P s3 = s_queue P s /\ s_rekeying P s3 = s_rekeying P s /\ s_x P s3 = s_x P s).
    { unfold s3. destruct ((ty =? MSG_USERAUTH_SUCCESS) && _); destruct ((ty =? MSG_NEWKEYS) && _); cbn; auto. }
    destruct K as (K1 & K2 & K3 & K4). destruct (g_same s s3 K1 K2 K3 K4 HG) as [G3 A3]. apply (gpost_from s s3); [exact A3|]. now apply check_g.
Qed.
Lemma proterr_g : forall s sq, G s -> gpost s [] (protocol_error P s sq).
Proof.
  intros s sq HG. unfold protocol_error. destruct (_ && _); [apply gpost_err; apply (g_quiet _ (g_0 _ HG))|].
  assert (F : filter ordinary [(MSG_UNIMPLEMENTED, be_enc 4 sq)] = []) by reflexivity.
  destruct (send2_g s MSG_UNIMPLEMENTED (be_enc 4 sq) HG ltac:(discriminate) ltac:(discriminate)) as [A B]. split; [exact A|]. rewrite F in B. exact B.
Qed.

Lemma kexinit_any : forall s, G s -> x_stage (s_x P s) = AwaitKexinit ->
  quiet true (types (fst (send_kexinit P s))) /\
  (snd (send_kexinit P s) = None -> G (fst (send_kexinit P s)) /\ all_of (fst (send_kexinit P s)) = all_of s /\
     x_sent (s_x P (fst (send_kexinit P s))) = true /\ x_done (s_x P (fst (send_kexinit P s))) = false /\ s_rekeying P (fst (send_kexinit P s)) = true).
Proof.
  intros s HG St. destruct (x_sent (s_x P s)) eqn:Sn.
  - unfold send_kexinit. rewrite Sn. cbn [fst snd]. split; [apply (g_quiet _ (g_0 _ HG))|]. intros _. split; [assumption|]. split; [reflexivity|].
    pose proof (g_sane _ HG) as S. unfold sane in S. rewrite St in S. split; [exact Sn|]. destruct S as [(_ & _ & S)|S]; [congruence|tauto].
  - destruct (kexinit_g s (g_0 _ HG) Sn St) as [A B]. split; [exact A|]. intros E. destruct (B E) as (B1 & B2 & _ & B3 & B4 & B5). auto.
Qed.

Lemma step_g : forall s e, G s -> gpost s (filter (fun m => negb ((fst m =? 20) || (fst m =? 21))) (submitted [e])) (step P s e).
Proof.
  intros s e HG. destruct e as [|ty pl|n| | |o i|ty len|len strict|len|dt|]; cbn [step submitted filter fst].
  - destruct (x_initial (s_x P s)); [|now apply gpost_ok]. destruct (x_sent (s_x P s)) eqn:Sn.
    + unfold send_kexinit. rewrite Sn. now apply gpost_ok.
    + assert (St : x_stage (s_x P s) = AwaitKexinit) by (pose proof (g_sane _ HG) as S; unfold sane in S; destruct (x_stage (s_x P s)); intuition congruence).
      destruct (kexinit_g s (g_0 _ HG) Sn St) as [A B]. split; [exact A|]. intros E. destruct (B E) as (B1 & B2 & _). split; [exact B1|]. cbn [filter]. now rewrite app_nil_r.
  - unfold MSG_KEXINIT, MSG_NEWKEYS. destruct ((ty =? 20) || (ty =? 21)) eqn:E; cbn [negb]; [now apply gpost_ok|]. apply send2_g; [assumption|unfold MSG_NEWKEYS; lia|unfold MSG_KEXINIT; lia].
  - split; cbn [fst snd]; [apply (g_quiet _ (g_0 _ HG))|]. intros _. cbn [filter]. rewrite app_nil_r. apply (g_same s); auto.
  - destruct (is_rekeying P s); [now apply gpost_ok|]. destruct (rekex_g s (g_0 _ HG) (g_sane _ HG)) as [A B]. split; [exact A|]. intros E. cbn [filter]. rewrite app_nil_r. auto.
  - now apply check_g.
  - now apply newkeys_g.
  - destruct ((ty =? MSG_KEXINIT) || (ty =? MSG_NEWKEYS)); [now apply gpost_ok|now apply receive_g].
  - pose proof (receive_g s MSG_KEXINIT len HG) as [R1 R2]. destruct (receive_packet P s MSG_KEXINIT len) as [s1 [e|]]; cbn [fst snd] in *; [now apply gpost_err|].
    destruct (R2 eq_refl) as [G1 A1]. cbn [filter] in A1. rewrite app_nil_r in A1. apply (gpost_from s s1 _ _ A1). unfold input_kexinit.
    destruct (x_stage (s_x P s1)) eqn:St; [|now apply proterr_g..].
    destruct (kexinit_any s1 G1 St) as [K1 K2]. destruct (send_kexinit P s1) as [s2 [e|]]; cbn [fst snd] in *; [now apply gpost_err|].
    destruct (K2 eq_refl) as (G2 & A2 & X1 & X2 & X3). split; cbn [fst snd]; [exact K1|]. intros _. cbn [filter]. rewrite app_nil_r, <- A2. split; [|reflexivity].
    destruct G2 as [[Q C H] S E]. split; [split; assumption| |exact E]. unfold sane. cbn [with_x s_x x_stage x_done x_sent s_rekeying]. auto.
  - pose proof (receive_g s MSG_NEWKEYS len HG) as [R1 R2]. destruct (receive_packet P s MSG_NEWKEYS len) as [s1 [e|]]; cbn [fst snd] in *; [now apply gpost_err|].
    destruct (R2 eq_refl) as [G1 A1]. cbn [filter] in A1. rewrite app_nil_r in A1. apply (gpost_from s s1 _ _ A1). unfold input_newkeys.
    destruct (x_stage (s_x P s1)) eqn:St; [now apply proterr_g..|].
    unfold set_newkeys_in. destruct (install P s1 false _ _) as [d|]; [|apply gpost_err; exact R1].
    split; cbn [fst snd]; [exact R1|]. intros _. cbn [filter]. rewrite app_nil_r. split; [|reflexivity].
    destruct G1 as [[Q C H] S E]. split; [split; assumption| |exact E]. unfold sane in *. rewrite St in S. cbn [with_x with_rd s_x x_stage x_done x_sent s_rekeying]. left. tauto.
  - split; cbn [fst snd]; [apply (g_quiet _ (g_0 _ HG))|]. intros _. cbn [filter]. rewrite app_nil_r. apply (g_same s); auto.
  - destruct (is_rekeying P s); [now apply gpost_ok|]. unfold handover.
    destruct (d_keys P (t_dir P (s_tx P s))); [|apply gpost_err; apply (g_quiet _ (g_0 _ HG))]. destruct (d_keys P (s_rd P s)); [|apply gpost_err; apply (g_quiet _ (g_0 _ HG))].
    split; cbn [fst snd]; [apply (g_quiet _ (g_0 _ HG))|]. intros _. cbn [filter]. rewrite app_nil_r. apply (g_same s); auto.
Qed.

Lemma run_g : forall es s, G s -> gpost s (filter (fun m => negb ((fst m =? 20) || (fst m =? 21))) (submitted es)) (run P s es).
Proof.
  induction es as [|e es IH]; intros s HG; cbn [run].
  - now apply gpost_ok.
  - pose proof (step_g s e HG) as [A B]. destruct (step P s e) as [s1 [x|]]; cbn [fst snd] in *; [now apply gpost_err|].
    destruct (B eq_refl) as [G1 A1]. destruct (IH s1 G1) as [C D]. split; [exact C|]. intros E. destruct (D E) as [G2 A2]. split; [exact G2|].
    rewrite A2, A1, <- app_assoc. f_equal. rewrite <- !filter_app. f_equal. f_equal. destruct e; reflexivity.
Qed.

Lemma start_g : forall server norekey limit interval my c, G (start P server norekey limit interval my c).
Proof.
  intros. split; [split; cbn; auto; constructor| |discriminate]. unfold sane. cbn. right. auto.
Qed.

Lemma ordinary_drop : forall l, filter ordinary (filter (fun m => negb ((fst m =? 20) || (fst m =? 21))) l) = filter ordinary l.
Proof.
  induction l as [|[ty pl] l IH]; [reflexivity|]. cbn [filter fst]. destruct ((ty =? 20) || (ty =? 21)) eqn:E; cbn [negb filter]; rewrite IH; [|reflexivity].
  assert (ordinary (ty, pl) = false) as -> by (unfold ordinary; cbn [fst]; lia). reflexivity.
Qed.

End FlowProof.
