(** C19, C20, C21: framing, delivery and integrity of the packet protocol. *)
From Verif Require Import Base PacketModel PacketSpec PacketProof PacketToy.

(** C19.  Whatever the payload, the keys and the extra padding asked for, one
    call of the sender either sends nothing and fails, or sends exactly one
    packet; that packet is well formed, its body is the content handed over (or
    its compressed form), and if extra padding was asked for the length is a
    multiple of it rounded up to whole blocks. *)
Theorem C19_framing : forall P initial norekey (t t' : tx P) pkt e,
  keys_sane (d_keys P (t_dir P t)) -> 6 <= zlen pkt <= 134217728 -> 0 <= t_extra P t < 256 ->
  (forall body z', body_for P (t_dir P t) (zdrop 5 pkt) body z' -> 1 <= zlen body <= 134217728) ->
  tx_emit P initial norekey t pkt = (t', e) ->
  (e <> None /\ t_output P t' = t_output P t /\ t_log P t' = t_log P t) \/
  exists frame body z' aad sealed,
    t_log P t' = t_log P t ++ [(d_keys P (t_dir P t), d_seq P (t_dir P t), frame)] /\
    t_output P t' = t_output P t ++ sealed /\
    body_for P (t_dir P t) (zdrop 5 pkt) body z' /\
    clear_bytes (d_keys P (t_dir P t)) aad /\
    framed (match d_keys P (t_dir P t) with Some k => k_block k | None => 8 end) aad body frame /\
    (t_extra P t <> 0 ->
     exists unit, t_extra P t <= unit /\ unit mod (match d_keys P (t_dir P t) with Some k => k_block k | None => 8 end) = 0 /\
       (zlen frame - aad) mod unit = 0).
Proof.
  intros P initial norekey t t' pkt e Hk Hl He Hz H.
  assert (B : d_block P (t_dir P t) = match d_keys P (t_dir P t) with Some k => k_block k | None => 8 end) by reflexivity.
  pose proof (sane_block _ _ Hk) as HB.
  apply emit_facts in H as [(H1 & H2 & H3)|(body & z' & frame & out & ctx' & E1 & E2 & _ & E3 & _ & E4 & E5 & _)]; auto; try lia.
  right. exists frame, body, z', (d_aadlen P (t_dir P t)). eexists. rewrite <- B. split; [exact E5|]. split; [exact E4|]. split; [exact E1|].
  split; [|split; [exact E2|]].
  - unfold clear_bytes, d_aadlen, d_etm, d_mac, d_authlen, aead, etm. destruct (d_keys P (t_dir P t)) as [k|]; [|reflexivity].
    destruct (k_authlen k =? 0) eqn:Ea; cbn [andb negb orb]; [|split; [reflexivity|intros N; exfalso; apply N; lia]].
    destruct (m_enabled (k_mac k)) eqn:Em; [destruct (m_etm (k_mac k)) eqn:Et|]; cbn [orb].
    + split; [reflexivity|]. intros _ N. exfalso. apply N. splits; auto. lia.
    + split; [|reflexivity]. intros [N|(_ & _ & N)]; [lia|discriminate].
    + split; [|reflexivity]. intros [N|(_ & N & _)]; [lia|discriminate].
  - intros Hx. specialize (E3 Hx). exists (roundup (t_extra P t) (d_block P (t_dir P t))).
    pose proof (roundup_spec (t_extra P t) (d_block P (t_dir P t)) ltac:(lia) ltac:(lia)) as [R1 R2]. splits; auto. lia.
Qed.
Print Assumptions C19_framing.

(** Padding can always be found when none is asked for, and whenever the amount
    asked for, rounded up to a block, leaves room in one byte. *)
Theorem C19_padding_exists : forall block len extra,
  8 <= block <= 16 -> 0 <= len < 2147483648 -> 0 <= extra < 256 ->
  extra = 0 \/ extra + 2 * block + 2 <= 255 ->
  exists p, pad_length block len extra = Some p /\ 4 <= p <= 255.
Proof.
  intros block len extra Hb Hl He Hx.
  assert (exists p, pad_length block len extra = Some p) as [p Hp].
  { destruct Hx as [->|Hx]; [apply pad_length_plain|].
    pose proof (roundup_spec extra block ltac:(lia) ltac:(lia)) as [R1 _]. apply pad_length_total; lia. }
  exists p. split; [assumption|]. apply pad_length_spec in Hp; [|lia..]. tauto.
Qed.
Print Assumptions C19_padding_exists.

(** Padding of 64, as used for passwords (sshconnect2.c, auth methods), on a
    16-byte block cipher: 20 bytes grow to 64, 50 bytes to 128. *)
Example C19_case : pad_length 16 50 64 = Some 78 /\ pad_length 16 20 64 = Some 44 /\ pad_length 8 13 250 = None /\
  pad_length 16 14 0 = Some 18.
Proof. vm_compute. splits; reflexivity. Qed.
Example C19_case_hyps : keys_sane (Some keys_aead) /\
  zlen (t_output toy (fst (tx_emit toy false false (toy_tx (Some keys_aead) 7) (packet 94 [1; 2; 3])))) = 36 /\
  match snd (tx_emit toy false false (toy_tx (Some keys_aead) 7) (packet 94 [1; 2; 3])) with None => True | _ => False end.
Proof. split; [cbn; lia|]. split; [vm_compute; reflexivity|vm_compute; exact I]. Qed.

(** C20.  The receiver holds the sender's keys and the bytes arrive unmodified,
    cut anywhere, with the reader called at any time.  Then (1) at every point
    what has been delivered is a prefix of what was sent, with the right sequence
    numbers and without error; (2) once all bytes have arrived, calling the reader
    as often as there are packets delivers all of them, no byte is left over, and
    both ends are in step again.  The sender's own limit: packets of at most
    256 KiB, as checked by the receiver. *)
Theorem C20_delivery : forall P initial norekey R Q (t t' : tx P) (r : rx P) sent L,
  keys_sane (d_keys P (t_dir P t)) -> mac_long P (d_keys P (t_dir P t)) ->
  inverse_cipher P (d_block P (t_dir P t)) (d_aadlen P (t_dir P t)) (d_authlen P (t_dir P t)) R ->
  inverse_comp P Q ->
  in_step P R Q (t_dir P t) (r_dir P r) ->
  r_input P r = [] -> r_packlen P r = 0 -> r_discard P r = 0 -> 0 <= t_extra P t < 256 ->
  Forall (fun '(ty, pl) => 1 <= ty < 256 /\ is_bytes pl /\ zlen pl <= 134217000) sent ->
  emits P initial norekey t (map (fun '(ty, pl) => packet ty pl) sent) = Some t' ->
  t_log P t' = t_log P t ++ L -> Forall (fun '(_, _, f) => zlen f <= 262148) L ->
  exists stream, t_output P t' = t_output P t ++ stream /\
    (forall sseq ops later, fed ops ++ later = stream ->
       exists some others r', sent = some ++ others /\
         receive P initial norekey sseq r ops = (numbered (d_seq P (t_dir P t)) some, inr r')) /\
    (forall sseq ops k, fed ops = stream -> (length sent <= k)%nat ->
       exists r', receive P initial norekey sseq r (ops ++ repeat Poll k) = (numbered (d_seq P (t_dir P t)) sent, inr r') /\
         r_input P r' = [] /\ r_packlen P r' = 0 /\ in_step P R Q (t_dir P t') (r_dir P r')).
Proof.
  intros P i n R Q t t' r sent L HS HM HC HZ Hin Hi Hp Hd He Hs Hem HL Hf.
  set (ok := d_keys P (t_dir P t)) in *.
  assert (HB : forall d, d_keys P d = ok -> d_block P d = d_block P (t_dir P t) /\ d_aadlen P d = d_aadlen P (t_dir P t) /\ d_authlen P d = d_authlen P (t_dir P t)).
  { intros d Hd'. destruct (d_mode P d (t_dir P t) Hd') as (? & ? & ? & _). auto. }
  destruct (emits_flights P i n Q ok _ _ _ HB HZ HM HS sent t t' L eq_refl He) as (str & Ho & Fl); auto.
  { destruct Hin as (_ & _ & HQ & _). eauto. }
  assert (St : stand P i n R Q ok (d_block P (t_dir P t)) (d_aadlen P (t_dir P t)) (d_authlen P (t_dir P t)) r str (t_dir P t) (t_dir P t') (contents sent)).
  { eapply st_fresh; eauto. rewrite Hi. reflexivity. }
  exists str. split; [assumption|]. split.
  - intros sseq ops later Hfd. rewrite <- Hfd in St.
    destruct (receive_ok P i n R Q ok _ _ _ HB HC HZ HM HS sseq (t_dir P t') ops r later (t_dir P t) sent Hd St) as (a & b & r' & s1 & E1 & E2 & _).
    exists a, b, r'. auto.
  - intros sseq ops k Hfd Hk. rewrite <- Hfd, <- (app_nil_r (fed ops)) in St.
    destruct (receive_ok P i n R Q ok _ _ _ HB HC HZ HM HS sseq (t_dir P t') ops r [] (t_dir P t) sent Hd St) as (a & b & r' & s1 & E1 & E2 & E3 & E4).
    assert (Hk2 : (length b <= k)%nat) by (subst sent; rewrite app_length in Hk; lia).
    destruct (drain_ok P i n R Q ok _ _ _ HB HC HZ HM HS sseq (t_dir P t') k r' s1 b E3 E4 Hk2) as (r2 & D1 & D2 & D3 & D4 & D5).
    exists r2. split; [|auto].
    destruct (receive_ok P i n R Q ok _ _ _ HB HC HZ HM HS sseq (t_dir P t') (ops ++ repeat Poll k) r [] (t_dir P t) sent Hd) as (a2 & b2 & r3 & s3 & F1 & F2 & _).
    { replace (fed (ops ++ repeat Poll k)) with (fed ops); [exact St|]. clear. induction ops as [|[c|] ops IH]; cbn [fed app].
      - induction k; cbn [repeat fed]; auto.
      - now rewrite IH.
      - exact IH. }
    rewrite receive_app, E2, D1 in F2. injection F2 as F2 <-.
    rewrite receive_app, E2, D1. rewrite F2.
    assert (b2 = []) as ->.
    { apply (f_equal (@length msg)) in F2. rewrite app_length in F2.
      assert (NL : forall l sq, length (numbered sq l) = length l) by (induction l as [|[? ?] l IH]; intros; cbn [numbered length]; [reflexivity|now rewrite IH]).
      rewrite !NL in F2. apply (f_equal (@length _)) in E1. apply (f_equal (@length _)) in F1. rewrite app_length in E1, F1. destruct b2; [reflexivity|cbn [length] in F1; lia]. }
    rewrite app_nil_r in F1. subst a2. reflexivity.
Qed.
Print Assumptions C20_delivery.

(** The hypotheses hold for the toy primitives in each framing mode, and the
    conclusion can be watched on a stream cut at odd places. *)
Definition tst_sent : list (Z * list Z) := [(90, [1; 2; 3]); (21, []); (94, repeat 7 40)].
Definition tst_cut (l : list Z) : list rop :=
  [Feed (ztake 3 l); Poll; Feed (ztake 30 (zdrop 3 l)); Poll; Poll; Feed (zdrop 33 l); Poll; Poll; Poll].
Definition tst_run (ok : option keys) : list msg :=
  match emits toy false false (toy_tx ok 5) (map (fun '(ty, pl) => packet ty pl) tst_sent) with
  | Some t' => fst (receive toy false false 77 (toy_rx ok 5) (tst_cut (t_output toy t')))
  | None => []
  end.
Example C20_case : forall ok, In ok [None; Some keys_eam; Some keys_etm; Some keys_aead] ->
  tst_run ok = numbered 5 tst_sent.
Proof. intros ok H. cbn [In] in H. destruct H as [<-|[<-|[<-|[<-|[]]]]]; vm_compute; reflexivity. Qed.
Example C20_hyps : forall ok, In ok [None; Some keys_eam; Some keys_etm; Some keys_aead] ->
  keys_sane ok /\ mac_long toy ok /\
  inverse_cipher toy (d_block toy (toy_dir true ok 5)) (d_aadlen toy (toy_dir true ok 5)) (d_authlen toy (toy_dir true ok 5)) toy_R /\
  inverse_comp toy (fun _ _ => True) /\
  in_step toy toy_R (fun _ _ => True) (toy_dir true ok 5) (toy_dir false ok 5) /\
  match emits toy false false (toy_tx ok 5) (map (fun '(ty, pl) => packet ty pl) tst_sent) with
  | Some t' => length (t_log toy t') = 3%nat /\ forallb (fun '(_, _, f) => zlen f <=? 262148) (t_log toy t') = true
  | None => False
  end.
Proof.
  intros ok H. cbn [In] in H. split; [|split; [|split; [|split; [exact toy_comp|split]]]].
  - destruct H as [<-|[<-|[<-|[<-|[]]]]]; cbn; lia.
  - destruct H as [<-|[<-|[<-|[<-|[]]]]]; cbn [mac_long]; try exact I; (split; [cbn; lia|intros; cbn [toy p_mac]; rewrite zlen_repeat; cbn; lia]).
  - apply toy_inverse; destruct H as [<-|[<-|[<-|[<-|[]]]]]; cbn; lia.
  - unfold in_step, toy_R. cbn. auto.
  - destruct H as [<-|[<-|[<-|[<-|[]]]]]; vm_compute; split; reflexivity.
Qed.

(** C21.  A connection with a MAC or an AEAD cipher in use, the reader between
    two packets.  For every byte stream and every schedule, the delivered messages
    are backed, one by one and from the first byte on, by pieces of the stream
    whose tag is right under the sequence number of that position; a message's
    content is the content of its piece. *)
Theorem C21_integrity : forall P initial norekey k sseq (r : rx P) ops,
  keys_sane (Some k) -> 0 <= m_len (k_mac k) <= 64 -> aead k \/ m_enabled (k_mac k) = true ->
  d_keys P (r_dir P r) = Some k -> r_packlen P r = 0 -> r_discard P r = 0 ->
  genuine P k (d_ctx P (r_dir P r)) (d_z P (r_dir P r)) (d_seq P (r_dir P r)) (r_input P r ++ fed ops)
    (fst (receive P initial norekey sseq r ops)).
Proof.
  intros P i n k sseq r ops HS HL HP Hk Hp Hd.
  apply (receive_genuine P i n k HS HL HP sseq ops r (d_ctx P (r_dir P r)) [] Hd).
  split; [assumption|]. left. auto.
Qed.
Print Assumptions C21_integrity.

(** If no piece at the front of the stream carries a right tag, nothing at all
    is delivered, whatever follows. *)
Theorem C21_forged : forall P initial norekey k sseq (r : rx P) ops,
  keys_sane (Some k) -> 0 <= m_len (k_mac k) <= 64 -> aead k \/ m_enabled (k_mac k) = true ->
  d_keys P (r_dir P r) = Some k -> r_packlen P r = 0 -> r_discard P r = 0 ->
  (forall wire rest plain ctx', r_input P r ++ fed ops = wire ++ rest ->
     ~ verified P k (d_ctx P (r_dir P r)) ctx' (d_seq P (r_dir P r)) wire plain) ->
  fst (receive P initial norekey sseq r ops) = [].
Proof.
  intros P i n k sseq r ops HS HL HP Hk Hp Hd Hno.
  pose proof (C21_integrity P i n k sseq r ops HS HL HP Hk Hp Hd) as G.
  remember (r_input P r ++ fed ops) as str. remember (fst (receive P i n sseq r ops)) as ms.
  destruct G as [|? ? ? ? ? ? ? ? ? ? ? ? V]; [reflexivity|]. exfalso. subst. eapply Hno; [reflexivity|exact V].
Qed.
Print Assumptions C21_forged.

(** Flipping one bit of a sent stream: nothing after it is delivered. *)
Definition tst_flip (ok : option keys) : list msg :=
  match emits toy false false (toy_tx ok 5) (map (fun '(ty, pl) => packet ty pl) tst_sent) with
  | Some t' => let w := t_output toy t' in
    fst (receive toy false false 77 (toy_rx ok 5) [Feed (ztake 9 w ++ [nth 9 w 0 + 1] ++ zdrop 10 w); Poll; Poll; Poll; Poll])
  | None => []
  end.
Example C21_case : tst_flip (Some keys_eam) = [] /\ tst_flip (Some keys_etm) = [] /\ tst_flip (Some keys_aead) = [] /\
  length (tst_flip None) = 3%nat.
Proof. vm_compute. splits; reflexivity. Qed.
Example C21_case_good : tst_run (Some keys_etm) <> [] /\ etm keys_etm /\ eam keys_eam /\ aead keys_aead.
Proof. split; [vm_compute; discriminate|]. unfold etm, eam, aead. cbn. splits; try reflexivity; discriminate. Qed.
