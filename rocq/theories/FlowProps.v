(** C22, C23: sequence numbers and traffic across key exchanges. *)
From Verif Require Import Base PacketModel PacketSpec PacketProof PacketToy FlowModel FlowSpec FlowProof.

Section Props.
Variable P : prims.

(** C22 (i).  For every history, including peers that cannot rekey and the
    hand-over between processes: under each key the packets carry consecutive
    sequence numbers.  The exchanges produce different keys. *)
Theorem C22_consecutive : forall server norekey limit interval my c es id,
  NoDup (produced es) ->
  exists base n, under id (t_log P (s_tx P (fst (run P (start P server norekey limit interval my c) es)))) = counting base n.
Proof.
  intros server norekey limit interval my c es id Hn.
  pose proof (run_post P false es [None] (start P server norekey limit interval my c)) as H.
  destruct H as [H _]; try discriminate; auto.
  - eapply inv_weaken. apply start_inv.
  - constructor.
  - intros k _ [Q|[]]. discriminate.
  - destruct (H id) as (b & n & E & _). exists b, n. exact E.
Qed.

(** C22 (ii).  Hence no (key, sequence number) pair is used twice as long as no
    key is used for more than 2^32 packets. *)
Theorem C22_unique_within : forall server norekey limit interval my c es log,
  NoDup (produced es) ->
  log = t_log P (s_tx P (fst (run P (start P server norekey limit interval my c) es))) ->
  (forall id, Z.of_nat (length (under id log)) <= 4294967296) ->
  NoDup (nonces log).
Proof.
  intros server norekey limit interval my c es log Hn Hl Hlen. apply nodup_nonces. intros id. specialize (Hlen id).
  destruct (C22_consecutive server norekey limit interval my c es id Hn) as (b & n & E). rewrite <- Hl in E. rewrite E in *.
  unfold counting in Hlen. rewrite map_length, seq_length in Hlen. now apply counting_nodup.
Qed.

(** C22 (iii).  With a peer that can rekey and in one process, no key is ever
    used for more than 2^32 packets, so no pair is ever used twice. *)
Theorem C22_unique : forall server limit interval my c es,
  NoDup (produced es) -> no_handover es ->
  NoDup (nonces (t_log P (s_tx P (fst (run P (start P server false limit interval my c) es))))).
Proof.
  intros server limit interval my c es Hn Hh.
  pose proof (run_post P true es [None] (start P server false limit interval my c)) as H.
  destruct H as [H _]; auto.
  - exact (start_inv P server false limit interval my c).
  - constructor.
  - intros k _ [Q|[]]. discriminate.
  - eapply C22_unique_within; [exact Hn|reflexivity|]. intros id. destruct (H id) as (b & n & E & L). unfold log in E. rewrite E. unfold counting. rewrite map_length, seq_length. now apply L.
Qed.

(** C22 (iv).  Past 2^31 packets in either direction, past the time limit, or
    when the block limit would be exceeded, an ordinary message is not sent:
    it is held back and a key exchange is started instead. *)
Definition due (s : st P) (len : Z) : Prop :=
  let out := t_dir P (s_tx P s) in let inp := s_rd P s in
  2147483648 < d_packets P out \/ 2147483648 < d_packets P inp \/
  (s_interval P s <> 0 /\ s_rtime P s + s_interval P s <= s_now P s) \/
  (d_maxb P out <> 0 /\ d_maxb P out < d_blocks P out + (len + d_block P out - 1) / d_block P out /\ 
   0 <= d_blocks P out < 4611686018427387904 /\ 0 <= len < 134217728) \/
  (d_maxb P inp <> 0 /\ d_maxb P inp < d_blocks P inp).
Theorem C22_demand : forall (s s' : st P) ty pl e,
  s_auth P s = true -> s_norekey P s = false -> x_done (s_x P s) = true -> x_sent (s_x P s) = false -> s_rekeying P s = false ->
  (d_packets P (t_dir P (s_tx P s)) <> 0 \/ d_packets P (s_rd P s) <> 0) ->
  8 <= d_block P (t_dir P (s_tx P s)) <= 16 ->
  due s (6 + zlen pl) -> ~ transport ty ->
  step P s (ESend ty pl) = (s', e) ->
  s_queue P s' = s_queue P s ++ [(ty, pl)] /\
  (s_wire P s' = s_wire P s ++ [(20, s_my P s)] \/ (e <> None /\ s_wire P s' = s_wire P s)).
Proof.
  intros s s' ty pl e Ha Hn Hd Hs Hr Hp Hb Hdue Ht H.
  assert (K : type_is_kex ty = false).
  { destruct (type_is_kex ty) eqn:E; [|reflexivity]. exfalso. apply Ht. now apply kex_transport. }
  assert (T1 : (ty =? MSG_KEXINIT) || (ty =? MSG_NEWKEYS) = false).
  { unfold type_is_kex, MSG_SERVICE_REQUEST, MSG_SERVICE_ACCEPT, MSG_EXT_INFO in K. unfold MSG_KEXINIT, MSG_NEWKEYS. lia. }
  assert (N : need_rekeying P s (6 + zlen pl) = true).
  { unfold need_rekeying, is_rekeying. rewrite Ha, Hn, Hd, Hr. cbn [negb orb].
    replace ((d_packets P (t_dir P (s_tx P s)) =? 0) && (d_packets P (s_rd P s) =? 0)) with false by lia.
    destruct (negb (s_interval P s =? 0) && (s_rtime P s + s_interval P s <=? s_now P s)) eqn:Et; [reflexivity|].
    unfold MAX_PACKETS. destruct ((2147483648 <? d_packets P (t_dir P (s_tx P s))) || (2147483648 <? d_packets P (s_rd P s))) eqn:Em; [reflexivity|].
    destruct Hdue as [D|[D|[D|[(D1 & D2 & D3 & D4)|(D1 & D2)]]]]; try lia.
    set (b := d_block P (t_dir P (s_tx P s))) in *. set (l := 6 + zlen pl) in *. set (bl := d_blocks P (t_dir P (s_tx P s))) in *. set (mx := d_maxb P (t_dir P (s_tx P s))) in *.
    assert (R : (l + b - 1) / b <= roundup l b /\ 0 <= roundup l b < 134217728 + 16).
    { unfold roundup. replace (l + (b - 1)) with (l + b - 1) by lia. pose proof (Z.div_mod (l + b - 1) b ltac:(lia)). pose proof (Z.mod_pos_bound (l + b - 1) b ltac:(lia)).
      pose proof (Z.div_pos (l + b - 1) b ltac:(lia) ltac:(lia)). nia. }
    assert (U1 : u32 (roundup l b) = roundup l b) by (unfold u32, U32; apply Z.mod_small; lia).
    rewrite U1. assert (U2 : u64 (bl + roundup l b) = bl + roundup l b) by (unfold u64, U64; apply Z.mod_small; lia). rewrite U2. lia. }
  cbn [step] in H. rewrite T1 in H. unfold send2 in H. rewrite K, N in H. cbn [negb andb orb] in H.
  unfold start_rekex in H. cbn [with_queue s_x] in H. rewrite Hd in H. cbn [negb] in H. unfold send_kexinit in H.
  cbn [with_x s_x x_sent x_initial x_strict x_stage x_out x_in s_my with_queue] in H. rewrite Hs in H.
  match type of H with (let '(_, _) := send_wrapped P ?a _ _ in _) = _ => set (s1 := a) in H end.
  destruct (send_wrapped P s1 MSG_KEXINIT (s_my P s)) as [s2 e2] eqn:E. apply wrapped_frame in E as (F1 & _ & _ & _ & _ & _ & _ & _ & _ & _ & _ & _ & W).
  destruct e2 as [e2|]; injection H as <- <-.
  - split; [exact F1|]. destruct W as [[W _]|W]; [right; split; [discriminate|exact W]|left; exact W].
  - split; [exact F1|]. destruct W as [[_ W]|W]; [congruence|left; exact W].
Qed.

(** C22 (v).  A wrap of the sequence number during the first exchange ends the
    connection. *)
Theorem C22_initial_wrap : forall norekey (t t' : tx P) pkt e,
  d_seq P (t_dir P t) = 4294967295 -> tx_emit P true norekey t pkt = (t', e) -> e <> None.
Proof.
  intros norekey t t' pkt e Hs H E. apply emit_log in H as [(H & _)|(f & _ & _ & _ & H & _)]; [congruence|].
  destruct (H E) as (_ & _ & H3). apply (H3 eq_refl). rewrite Hs. reflexivity.
Qed.

(** C23 (i).  In every history, also one cut short by an error, nothing but
    transport messages goes out before the first NEWKEYS and from each KEXINIT
    to the NEWKEYS that follows it. *)
Theorem C23_quiet : forall server norekey limit interval my c es,
  quiet true (map fst (s_wire P (fst (run P (start P server norekey limit interval my c) es)))).
Proof.
  intros. destruct (run_g P es _ (start_g P server norekey limit interval my c)) as [H _]. exact H.
Qed.

(** C23 (ii).  While the session lives, the ordinary messages sent so far followed
    by those held back are exactly those submitted, in order; and outside an
    exchange none is held back. *)
Theorem C23_order : forall server norekey limit interval my c es s,
  run P (start P server norekey limit interval my c) es = (s, None) ->
  filter ordinary (s_wire P s) ++ s_queue P s = filter ordinary (submitted es) /\
  (closed_after true (map fst (s_wire P s)) = false -> s_queue P s = []).
Proof.
  intros server norekey limit interval my c es s H.
  destruct (run_g P es _ (start_g P server norekey limit interval my c)) as [_ G]. rewrite H in G. cbn [fst snd] in G.
  destruct (G eq_refl) as [[[Q C Hh] S E] A]. rewrite ordinary_drop in A. split; [exact A|]. intros Hc. apply E. rewrite <- C. exact Hc.
Qed.
End Props.
Print Assumptions C22_consecutive.
Print Assumptions C22_unique_within.
Print Assumptions C22_unique.
Print Assumptions C22_demand.
Print Assumptions C22_initial_wrap.
Print Assumptions C23_quiet.
Print Assumptions C23_order.

(** A session of the toy primitives: first exchange, authentication, data, a
    rekey in the middle of which data is submitted. *)
Definition k1 : keys := mkKeys 8 0 false false [1] (mkMac false true 16 [1]) true false.
Definition k2 : keys := mkKeys 16 16 false false [2] (mkMac false false 0 []) false false.
Definition session : list event :=
  [EKexinit; ESend 5 [1]; ERecvKexinit 200 true; ESend 30 [7; 7]; ERecv 31 90; ENewkeys k1 k1; ERecvNewkeys 16; ESend 52 [];
   ESend 94 [1]; ERecv 90 40; ERekex; ESend 94 [2]; ESend 2 []; ERecvKexinit 200 true; ESend 94 [3]; ENewkeys k2 k2; ESend 94 [4];
   ERecvNewkeys 16; ESend 94 [5]].
Definition st0 : st toy := start toy true false 0 3600 [9; 9; 9] (true, 0).
Example C22_case :
  (match snd (run toy st0 session) with None => true | _ => false end) = true /\
  map (fun '(k, sq, _) => (key_id k, sq)) (t_log toy (s_tx toy (fst (run toy st0 session)))) =
    [(None, 0); (None, 1); (None, 2);
     (Some [1], 0); (Some [1], 1); (Some [1], 2); (Some [1], 3); (Some [1], 4); (Some [1], 5);
     (Some [2], 0); (Some [2], 1); (Some [2], 2); (Some [2], 3)] /\
  NoDup (produced session) /\ no_handover session.
Proof.
  split; [vm_compute; reflexivity|]. split; [vm_compute; reflexivity|]. split; [repeat constructor; cbn; intuition discriminate|].
  unfold no_handover, session. cbn. intuition discriminate.
Qed.
Example C23_case :
  map fst (s_wire toy (fst (run toy st0 session))) = [20; 30; 21; 5; 52; 94; 20; 2; 21; 94; 94; 94; 94] /\
  map snd (filter ordinary (s_wire toy (fst (run toy st0 session)))) = [[1]; []; [1]; [2]; [3]; [4]; [5]].
Proof. vm_compute. split; reflexivity. Qed.
(** A tiny limit of 32 bytes: the second message waits for a new exchange. *)
Example C22_demand_case :
  map fst (s_wire toy (fst (run toy (start toy true false 32 0 [9] (true, 0))
    [EKexinit; ERecvKexinit 200 true; ENewkeys k1 k1; ERecvNewkeys 16; ESend 52 []; ESend 94 [1; 2; 3]; ESend 94 [4]]))) = [20; 21; 52; 20].
Proof. vm_compute. reflexivity. Qed.

(** Padding requested with sshpkt_add_padding belongs to the next packet that
    leaves, not to the next message submitted: when the message is held back the
    KEXINIT gets the padding and the message gets none. *)
Theorem C23_padding_refuted : exists es s,
  es = [EPad 64; ESend 50 [1; 2; 3]; EKexinit; ERecvKexinit 100 false; ENewkeys k2 k2] /\
  s = fst (run toy (start toy true false 0 0 [9] (true, 0)) es) /\
  map (fun '(_, _, f) => zlen f) (t_log toy (s_tx toy s)) = [64; 16; 20] /\
  map fst (s_wire toy s) = [20; 21; 50].
Proof. do 2 eexists. split; [reflexivity|]. split; [reflexivity|]. vm_compute. split; reflexivity. Qed.
Print Assumptions C23_padding_refuted.

(** * Where the limit of 2^32 packets per key does not hold *)

Definition k3 : keys := mkKeys 8 0 false false [1] (mkMac false true 16 [1]) false false.
Record calm (s : st toy) : Prop := mkCalm {
  c_keys : d_keys toy (t_dir toy (s_tx toy s)) = Some (mac_started k3);
  c_ctx : fst (d_ctx toy (t_dir toy (s_tx toy s))) = true;
  c_extra : t_extra toy (s_tx toy s) = 0;
  c_init : x_initial (s_x toy s) = false;
  c_seq : 0 <= d_seq toy (t_dir toy (s_tx toy s)) < 4294967296
}.
Lemma send_ignore : forall s, calm s -> exists s' e f,
  step toy s (ESend 2 []) = (s', e) /\ calm s' /\ s_norekey toy s' = s_norekey toy s /\
  t_log toy (s_tx toy s') = t_log toy (s_tx toy s) ++ [(Some (mac_started k3), d_seq toy (t_dir toy (s_tx toy s)), f)] /\
  d_seq toy (t_dir toy (s_tx toy s')) = u32 (d_seq toy (t_dir toy (s_tx toy s)) + 1) /\
  (e = None -> d_packets toy (t_dir toy (s_tx toy s')) = u32 (d_packets toy (t_dir toy (s_tx toy s)) + 1)) /\
  (s_norekey toy s = true \/ u32 (d_packets toy (t_dir toy (s_tx toy s)) + 1) <> 0 -> e = None).
Proof.
  intros s [K C E I S]. cbn [step]. change ((2 =? MSG_KEXINIT) || (2 =? MSG_NEWKEYS)) with false. cbv iota.
  unfold send2. change (type_is_kex 2) with true. cbn [negb andb]. rewrite andb_false_r.
  unfold send_wrapped.
  destruct (tx_emit toy (x_initial (s_x toy s)) (s_norekey toy s) (s_tx toy s) (repeat 0 5 ++ [2] ++ [])) as [t e] eqn:Em.
  assert (X : t_extra toy t = 0 /\ fst (d_ctx toy (t_dir toy t)) = true /\ t_log toy t <> t_log toy (s_tx toy s)).
  { unfold tx_emit, compress_packet, d_comp, d_aadlen, d_etm, d_mac, d_authlen, d_block in Em. rewrite K, E in Em.
    cbn [mac_started k3 k_comp_on k_authlen k_mac m_enabled m_etm k_block k_none Z.eqb andb orb negb] in Em.
    change (zlen (repeat 0 5 ++ [2] ++ [])) with 6 in Em.
    change (pad_length 8 (u32 (u32 6 - 4)) 0) with (Some 6) in Em. cbv iota zeta in Em.
    cbn [toy p_crypt] in Em. unfold toy_crypt in Em. destruct (d_ctx toy (t_dir toy (s_tx toy s))) as [enc pos]. cbn [fst] in C. subst enc.
    match type of Em with (let '(_, _) := count_packet _ _ _ ?d ?l in _) = _ => destruct (count_packet toy (x_initial (s_x toy s)) (s_norekey toy s) d l) as [d2 e2] eqn:Cp end.
    injection Em as <- <-. cbn [t_extra t_dir t_log]. split; [reflexivity|]. split.
    - unfold count_packet in Cp. cbn [with_ctx d_ctx] in Cp. destruct ((_ =? 0) && _); [injection Cp as <- <-; reflexivity|].
      destruct ((_ =? 0) && _); injection Cp as <- <-; reflexivity.
    - intros Q. apply (f_equal (@length _)) in Q. rewrite app_length in Q. cbn [length] in Q. lia. }
  destruct X as (X1 & X2 & X3). apply emit_log in Em as [(_ & L & _)|(f & L & Kd & Sq & Ok & Er)]; [congruence|].
  assert (Pk : s_norekey toy s = true \/ u32 (d_packets toy (t_dir toy (s_tx toy s)) + 1) <> 0 -> e = None).
  { intros Hp. destruct e as [e|]; [|reflexivity]. exfalso. destruct (Er ltac:(discriminate)) as [[A B]|[A _]]; [destruct Hp; congruence|congruence]. }
  assert (B : 0 <= u32 (d_seq toy (t_dir toy (s_tx toy s)) + 1) < 4294967296) by (unfold u32, U32; apply Z.mod_pos_bound; lia).
  destruct e as [e|].
  - do 3 eexists. split; [reflexivity|]. split; [split; cbn; auto; [rewrite Kd; exact K|rewrite Sq; exact B]|]. split; [reflexivity|]. cbn [with_wire with_tx s_tx]. rewrite L, K. split; [reflexivity|].
    split; [exact Sq|]. split; [discriminate|exact Pk].
  - change (2 =? MSG_NEWKEYS) with false. change (2 =? MSG_USERAUTH_SUCCESS) with false. cbn [andb]. cbv iota.
    do 3 eexists. split; [reflexivity|]. split; [split; cbn; auto; [rewrite Kd; exact K|rewrite Sq; exact B]|]. split; [reflexivity|]. cbn [with_wire with_tx s_tx]. rewrite L, K. split; [reflexivity|].
    split; [exact Sq|]. split; [|reflexivity]. intros _. apply Ok. reflexivity.
Qed.

(** n messages in a row. *)
Lemma many_ignores : forall n s, calm s ->
  (s_norekey toy s = true \/ (0 <= d_packets toy (t_dir toy (s_tx toy s)) /\ d_packets toy (t_dir toy (s_tx toy s)) + Z.of_nat n <= 4294967296)) ->
  exists s' e L, run toy s (repeat (ESend 2 []) n) = (s', e) /\ t_log toy (s_tx toy s') = t_log toy (s_tx toy s) ++ L /\
    nonces L = map (fun q => (Some [1], q)) (counting (d_seq toy (t_dir toy (s_tx toy s))) n).
Proof.
  induction n as [|n IH]; intros s Hc Hp.
  - exists s, None, []. split; [reflexivity|]. rewrite app_nil_r. split; reflexivity.
  - destruct (send_ignore s Hc) as (s1 & e & f & E & C1 & N1 & L1 & S1 & P1 & Ok). pose proof (c_seq _ Hc) as HS.
    assert (Cnt : counting (d_seq toy (t_dir toy (s_tx toy s))) (S n) = d_seq toy (t_dir toy (s_tx toy s)) :: counting (u32 (d_seq toy (t_dir toy (s_tx toy s)) + 1)) n).
    { unfold counting. cbn [seq map]. f_equal; [rewrite Z.add_0_r; unfold u32, U32; now apply Z.mod_small|].
      rewrite <- seq_shift, map_map. apply map_ext. intros j. unfold u32. rewrite Zplus_mod_idemp_l. f_equal. lia. }
    cbn [repeat run]. rewrite E. destruct n as [|n].
    + exists s1, e, [(Some (mac_started k3), d_seq toy (t_dir toy (s_tx toy s)), f)]. split; [destruct e; reflexivity|]. split; [exact L1|].
      rewrite Cnt. reflexivity.
    + assert (e = None) as ->.
      { apply Ok. destruct Hp as [Hp|Hp]; [now left|right]. unfold u32, U32. rewrite Z.mod_small by lia. lia. }
      destruct (IH s1 C1) as (s' & e' & L & R & Lg & Nn).
      { rewrite N1. destruct Hp as [Hp|Hp]; [now left|right]. rewrite P1 by reflexivity. unfold u32, U32. rewrite Z.mod_small by lia. lia. }
      exists s', e', ((Some (mac_started k3), d_seq toy (t_dir toy (s_tx toy s)), f) :: L). split; [exact R|]. split; [rewrite Lg, L1, <- app_assoc; reflexivity|].
      rewrite Cnt. cbn [nonces map]. fold (nonces L). rewrite Nn, S1. reflexivity.
Qed.

Lemma run_app : forall a b s, run toy s (a ++ b) = match run toy s a with (s1, None) => run toy s1 b | r => r end.
Proof.
  induction a as [|e a IH]; intros b s; cbn [app run]; [reflexivity|].
  destruct (step toy s e) as [s1 [x|]]; [reflexivity|]. apply IH.
Qed.

Lemma counting_repeat : forall b m, 4294967296 < Z.of_nat m -> ~ NoDup (counting b m).
Proof.
  intros b m Hm H.
  assert (exists w, Z.of_nat w = 4294967296 /\ (w < m)%nat) as (w & Hw & Hwm).
  { exists (Z.to_nat 4294967296). pose proof (Z2Nat.id 4294967296 ltac:(lia)) as E. revert E. generalize (Z.to_nat 4294967296). intros w E. lia. }
  pose proof (proj1 (NoDup_nth _ 0) H 0%nat w) as Q. unfold counting in Q. rewrite map_length, seq_length in Q.
  assert (Nth : forall k, (k < m)%nat -> nth k (map (fun j => u32 (b + Z.of_nat j)) (seq 0 m)) 0 = u32 (b + Z.of_nat k)).
  { intros k Hk. rewrite (nth_indep _ _ (u32 (b + Z.of_nat 0))) by (rewrite map_length, seq_length; lia).
    rewrite (map_nth (fun j => u32 (b + Z.of_nat j))), seq_nth by lia. reflexivity. }
  assert (X : 0%nat = w); [|lia]. apply Q; [lia|lia|]. rewrite !Nth by lia.
  rewrite Hw. unfold u32, U32. change (Z.of_nat 0) with 0. rewrite Z.add_0_r. rewrite <- (Z_mod_plus_full b 1 4294967296). f_equal; lia.
Qed.

Lemma nodup_app_r : forall (A : Type) (a b : list A), NoDup (a ++ b) -> NoDup b.
Proof. induction a as [|x a IH]; intros b H; [exact H|]. inversion H; auto. Qed.
Lemma produced_ignores : forall n, produced (repeat (ESend 2 []) n) = [].
Proof. induction n; cbn; auto. Qed.

Definition opening : list event := [EKexinit; ERecvKexinit 200 false; ENewkeys k3 k3; ERecvNewkeys 16].

Lemma norekey_reuse : forall N, Z.of_nat N = 4294967297 ->
  let es := opening ++ repeat (ESend 2 []) N in
  NoDup (produced es) /\ no_handover es /\
  ~ NoDup (nonces (t_log toy (s_tx toy (fst (run toy (start toy false true 0 0 [9] (true, 0)) es))))).
Proof.
  intros N HN es. split; [|split].
  - unfold es, opening. cbn [app produced]. rewrite produced_ignores. repeat constructor. intros [].
  - unfold no_handover. intros H. apply in_app_iff in H as [H|H]; [unfold opening in H; cbn in H; intuition discriminate|]. apply repeat_spec in H. discriminate.
  - unfold es. rewrite run_app. remember (run toy (start toy false true 0 0 [9] (true, 0)) opening) as r eqn:Er.
    assert (F : snd r = None /\ calm (fst r) /\ s_norekey toy (fst r) = true) by (subst r; split; [vm_compute; reflexivity|]; split; [split; vm_compute; try reflexivity; split; [discriminate|reflexivity]|reflexivity]).
    clear Er. destruct r as [s [x|]]; cbn [fst snd] in F; destruct F as (F1 & F2 & F3); [discriminate|].
    destruct (many_ignores N s F2 (or_introl F3)) as (s' & e & L & R & Lg & Nn). rewrite R. cbn [fst]. rewrite Lg.
    unfold nonces. rewrite map_app. intros H. apply nodup_app_r in H. fold (nonces L) in H. rewrite Nn in H. apply NoDup_map_inv in H.
    apply counting_repeat in H; [exact H|lia].
Qed.

(** A peer with the NOREKEY bug flag: the counter wraps and pairs are reused. *)
Theorem C22_norekey_refuted : exists es, NoDup (produced es) /\ no_handover es /\
  ~ NoDup (nonces (t_log toy (s_tx toy (fst (run toy (start toy false true 0 0 [9] (true, 0)) es))))).
Proof. eexists. exact (norekey_reuse (Z.to_nat 4294967297) (Z2Nat.id 4294967297 ltac:(lia))). Qed.
Print Assumptions C22_norekey_refuted.

Lemma handover_reuse : forall N, Z.of_nat N = 4294967296 ->
  let es := (opening ++ [ESend 2 []; EHandover]) ++ repeat (ESend 2 []) N in
  NoDup (produced es) /\
  ~ NoDup (nonces (t_log toy (s_tx toy (fst (run toy (start toy true false 0 0 [9] (true, 0)) es))))).
Proof.
  intros N HN es. split.
  - unfold es, opening. cbn [app produced]. rewrite produced_ignores. repeat constructor. intros [].
  - unfold es. rewrite run_app. remember (run toy (start toy true false 0 0 [9] (true, 0)) (opening ++ [ESend 2 []; EHandover])) as r eqn:Er.
    assert (F : snd r = None /\ calm (fst r) /\ d_packets toy (t_dir toy (s_tx toy (fst r))) = 0 /\ d_seq toy (t_dir toy (s_tx toy (fst r))) = 3 /\
      nonces (t_log toy (s_tx toy (fst r))) = [(None, 0); (None, 1); (Some [1], 2)]).
    { subst r. split; [vm_compute; reflexivity|]. split; [split; vm_compute; try reflexivity; split; [discriminate|reflexivity]|]. vm_compute. splits; reflexivity. }
    clear Er. destruct r as [s [x|]]; cbn [fst snd] in F; destruct F as (F1 & F2 & F3 & F4 & F5); [discriminate|].
    destruct (many_ignores N s F2) as (s' & e & L & R & Lg & Nn); [right; rewrite F3; lia|]. rewrite R. cbn [fst]. rewrite Lg.
    unfold nonces. rewrite map_app. fold (nonces L) (nonces (t_log toy (s_tx toy s))). rewrite Nn, F5, F4. cbn [app]. intros H.
    inversion H as [|? ? _ H1]; subst. inversion H1 as [|? ? _ H2]; subst.
    assert (E : (Some [1], 2) :: map (fun q => (Some [1], q)) (counting 3 N) = map (fun q => (Some [1], q)) (counting 2 (S N))).
    { unfold counting. cbn [seq map]. f_equal. rewrite <- seq_shift, !map_map. apply map_ext. intros j. do 2 f_equal. lia. }
    rewrite E in H2. apply NoDup_map_inv in H2. apply counting_repeat in H2; [exact H2|lia].
Qed.
(** The hand-over to the process that runs the session clears the packet count
    but keeps keys and sequence number (packet.c:2575, "XXX ssh_set_newkeys
    overrides p_read.packets? XXX"), so the hard limit of 2^32 packets starts
    anew and the pairs used before it can come up again. *)
Theorem C22_handover_refuted : exists es, NoDup (produced es) /\
  ~ NoDup (nonces (t_log toy (s_tx toy (fst (run toy (start toy true false 0 0 [9] (true, 0)) es))))).
Proof. eexists. exact (handover_reuse (Z.to_nat 4294967296) (Z2Nat.id 4294967296 ltac:(lia))). Qed.
Print Assumptions C22_handover_refuted.
