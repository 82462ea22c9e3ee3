(** Proofs about the packet model. *)
From Verif Require Import Base PacketModel PacketSpec.

(** ** Padding *)

Lemma u8_small : forall x, 0 <= x < 256 -> u8 x = x.
Proof. intros. unfold u8, U8. apply Z.mod_small. lia. Qed.
Lemma u32_small : forall x, 0 <= x < 4294967296 -> u32 x = x.
Proof. intros. unfold u32, U32. apply Z.mod_small. lia. Qed.
Lemma u8_range : forall x, 0 <= u8 x < 256.
Proof. intros. unfold u8, U8. apply Z.mod_pos_bound. lia. Qed.

Lemma roundup_spec : forall x y, 0 < y -> 0 <= x -> x <= roundup x y < x + y /\ roundup x y mod y = 0.
Proof.
  intros x y Hy Hx. unfold roundup.
  pose proof (Z.div_mod (x + (y - 1)) y ltac:(lia)) as D. pose proof (Z.mod_pos_bound (x + (y - 1)) y Hy) as B.
  split; [nia|]. apply Z.mod_mul. lia.
Qed.

Lemma pad0_spec : forall block len, 4 <= block <= 126 -> 0 <= len ->
  let p0 := u8 (block - len mod block) in
  let p := if p0 <? 4 then u8 (p0 + block) else p0 in
  4 <= p <= block + 3 /\ (len + p) mod block = 0.
Proof.
  intros block len Hb Hl p0 p. pose proof (Z.mod_pos_bound len block ltac:(lia)) as B.
  assert (E0 : p0 = block - len mod block) by (unfold p0; apply u8_small; lia).
  assert (M0 : (len + p0) mod block = 0).
  { rewrite E0. replace (len + (block - len mod block)) with ((len / block + 1) * block); [apply Z.mod_mul; lia|].
    pose proof (Z.div_mod len block ltac:(lia)). lia. }
  unfold p. destruct (p0 <? 4) eqn:E.
  - rewrite u8_small by lia. split; [lia|]. replace (len + (p0 + block)) with ((len + p0) + 1 * block) by lia.
    rewrite Z.mod_add by lia. assumption.
  - split; [lia|assumption].
Qed.

Lemma pad_length_spec : forall block len extra p,
  4 <= block <= 126 -> 0 <= len < 2147483648 -> 0 <= extra < 256 ->
  pad_length block len extra = Some p ->
  4 <= p <= 255 /\ (len + p) mod block = 0 /\
  (extra <> 0 -> (len + p) mod (roundup extra block) = 0).
Proof.
  intros block len extra p Hb Hl He H. unfold pad_length in H.
  pose proof (pad0_spec block len Hb ltac:(lia)) as S. cbv zeta in S, H.
  set (q := if u8 (block - len mod block) <? 4 then u8 (u8 (block - len mod block) + block) else u8 (block - len mod block)) in *.
  destruct S as [S1 S2]. destruct (extra =? 0) eqn:E0.
  - injection H as <-. split; [lia|]. split; [assumption|lia].
  - pose proof (roundup_spec extra block ltac:(lia) ltac:(lia)) as [R1 R2].
    destruct (u8 (roundup extra block) <? extra) eqn:E1; [discriminate|].
    assert (RS : roundup extra block < 256).
    { destruct (Z_lt_dec (roundup extra block) 256) as [|N]; [assumption|exfalso].
      assert (u8 (roundup extra block) = roundup extra block - 256).
      { unfold u8, U8. symmetry. apply Z.mod_unique with 1; lia. } lia. }
    rewrite (u8_small (roundup extra block)) in * by lia.
    set (X := roundup extra block) in *.
    rewrite (u32_small (len + q)) in H by lia.
    pose proof (Z.mod_pos_bound (len + q) X ltac:(lia)) as B.
    rewrite (u8_small ((len + q) mod X)) in H by lia.
    destruct (X <? (len + q) mod X) eqn:E2; [discriminate|].
    rewrite (u8_small (X - (len + q) mod X)) in H by lia.
    destruct (u8 (q + (X - (len + q) mod X)) <? q) eqn:E3; [discriminate|]. injection H as <-.
    assert (QS : q + (X - (len + q) mod X) < 256).
    { destruct (Z_lt_dec (q + (X - (len + q) mod X)) 256) as [|N]; [assumption|exfalso].
      assert (u8 (q + (X - (len + q) mod X)) = q + (X - (len + q) mod X) - 256).
      { unfold u8, U8. symmetry. apply Z.mod_unique with 1; lia. } lia. }
    rewrite u8_small by lia. split; [lia|].
    assert (MX : (len + (q + (X - (len + q) mod X))) mod X = 0).
    { replace (len + (q + (X - (len + q) mod X))) with (((len + q) / X + 1) * X); [apply Z.mod_mul; lia|].
      pose proof (Z.div_mod (len + q) X ltac:(lia)). lia. }
    split; [|intros _; assumption].
    apply Z.mod_divide in MX; [|lia]. apply Z.mod_divide in R2; [|lia]. apply Z.mod_divide; [lia|].
    now apply Z.divide_trans with X.
Qed.

(** When the requested padding cannot be honoured, and when it always can. *)
Lemma pad_length_plain : forall block len, exists p, pad_length block len 0 = Some p.
Proof. intros. unfold pad_length. cbn [Z.eqb]. eexists. reflexivity. Qed.
Lemma pad_length_total : forall block len extra,
  4 <= block <= 126 -> 0 <= len < 2147483648 -> 0 <= extra < 256 ->
  roundup extra block + block + 3 <= 255 -> exists p, pad_length block len extra = Some p.
Proof.
  intros block len extra Hb Hl He Hr. unfold pad_length.
  pose proof (pad0_spec block len Hb ltac:(lia)) as S. cbv zeta in S |- *.
  set (q := if u8 (block - len mod block) <? 4 then u8 (u8 (block - len mod block) + block) else u8 (block - len mod block)) in *.
  destruct S as [S1 S2]. destruct (extra =? 0) eqn:E0; [eexists; reflexivity|].
  pose proof (roundup_spec extra block ltac:(lia) ltac:(lia)) as [R1 R2].
  rewrite (u8_small (roundup extra block)) by lia. set (X := roundup extra block) in *.
  rewrite (u32_small (len + q)) by lia. pose proof (Z.mod_pos_bound (len + q) X ltac:(lia)) as B.
  rewrite (u8_small ((len + q) mod X)) by lia.
  replace (X <? extra) with false by lia. replace (X <? (len + q) mod X) with false by lia.
  rewrite (u8_small (X - (len + q) mod X)) by lia. rewrite u8_small by lia.
  replace (q + (X - (len + q) mod X) <? q) with false by lia. eexists. reflexivity.
Qed.

(** ** What a successful emission does *)

Section P.
Variable P : prims.

Lemma zlen_random : forall seed n, 0 <= n -> zlen (random_bytes P seed n) = n.
Proof. intros. unfold random_bytes, zlen. rewrite map_length, seq_length. lia. Qed.
Lemma is_bytes_random : forall seed n, is_bytes (random_bytes P seed n).
Proof.
  intros. unfold random_bytes, is_bytes. apply Forall_forall. intros x H. apply in_map_iff in H as (i & <- & _).
  apply u8_range.
Qed.
Lemma is_bytes_zeros : forall n, is_bytes (repeat 0 n).
Proof. intros. apply Forall_forall. intros x H. apply repeat_spec in H. subst. unfold is_byte. lia. Qed.

Lemma d_aadlen_cases : forall d, d_aadlen P d = 0 \/ d_aadlen P d = 4.
Proof. intros. unfold d_aadlen. destruct (_ || _); auto. Qed.

Lemma compress_facts : forall d pkt pkt1 d1, 5 <= zlen pkt ->
  compress_packet P d pkt = Some (pkt1, d1) ->
  exists z', body_for P d (zdrop 5 pkt) (zdrop 5 pkt1) z' /\ d1 = with_z P d z' /\ zlen pkt1 = 5 + zlen (zdrop 5 pkt1).
Proof.
  intros d pkt pkt1 d1 Hl H. unfold compress_packet, d_comp in H. unfold body_for. destruct d as [ko ctx sq pk bl by_ mb z]. cbn [d_keys d_z] in *.
  destruct ko as [k|]; [destruct (k_comp_on k) eqn:Ek|].
  - destruct (p_deflate P z (zdrop 5 pkt)) as [[c z']|] eqn:E; [|discriminate].
    assert (pkt1 = repeat 0 5 ++ c) as -> by congruence. assert (d1 = with_z P (mkDir P (Some k) ctx sq pk bl by_ mb z) z') as -> by congruence.
    exists z'. rewrite (zdrop_app_exact Z 5 (repeat 0 5) c eq_refl). split; [first [assumption|reflexivity]|]. split; [reflexivity|].
    rewrite zlen_app. change (zlen (repeat 0 5)) with 5. lia.
  - injection H as <- <-. exists z. split; [auto|]. split; [reflexivity|]. rewrite zlen_zdrop by lia. lia.
  - injection H as <- <-. exists z. split; [auto|]. split; [reflexivity|]. rewrite zlen_zdrop by lia. lia.
Qed.

Lemma sane_block : forall d, keys_sane (d_keys P d) -> d_block P d = 8 \/ d_block P d = 16.
Proof. intros d H. unfold keys_sane in H. unfold d_block. destruct (d_keys P d); [tauto|auto]. Qed.
Lemma sane_auth : forall d, keys_sane (d_keys P d) -> 0 <= d_authlen P d <= 16.
Proof. intros d H. unfold keys_sane in H. unfold d_authlen. destruct (d_keys P d); [tauto|lia]. Qed.

Definition tag_of (d : dir P) (out frame : list Z) : list Z :=
  match d_mac P d with Some (k, m) => mac_compute P k m (d_seq P d) (if m_etm m then out else frame) | None => [] end.

(** Whatever [tx_emit] returns, either nothing was sent or exactly one
    well-formed packet was. *)
Lemma emit_facts : forall i n t pkt t' e,
  keys_sane (d_keys P (t_dir P t)) -> 6 <= zlen pkt <= 134217728 -> 0 <= t_extra P t < 256 ->
  (forall body z', body_for P (t_dir P t) (zdrop 5 pkt) body z' -> 1 <= zlen body <= 134217728) ->
  tx_emit P i n t pkt = (t', e) ->
  (t_log P t' = t_log P t /\ t_output P t' = t_output P t /\ e <> None) \/
  exists body z' frame out ctx',
    body_for P (t_dir P t) (zdrop 5 pkt) body z' /\
    framed (d_block P (t_dir P t)) (d_aadlen P (t_dir P t)) body frame /\
    (is_bytes body -> is_bytes frame) /\
    (t_extra P t <> 0 -> (zlen frame - d_aadlen P (t_dir P t)) mod roundup (t_extra P t) (d_block P (t_dir P t)) = 0) /\
    p_crypt P (d_ctx P (t_dir P t)) (d_seq P (t_dir P t)) frame (zlen frame - d_aadlen P (t_dir P t))
      (d_aadlen P (t_dir P t)) (d_authlen P (t_dir P t)) = Some (out, ctx') /\
    t_output P t' = t_output P t ++ out ++ tag_of (t_dir P t) out frame /\
    t_log P t' = t_log P t ++ [(d_keys P (t_dir P t), d_seq P (t_dir P t), frame)] /\
    count_packet P i n (with_ctx P (with_z P (t_dir P t) z') ctx') (zlen frame) = (t_dir P t', e) /\
    t_extra P t' = 0.
Proof.
  intros i n t pkt t' e Hk Hl He Hz H. unfold tx_emit in H.
  destruct (compress_packet P (t_dir P t) pkt) as [[pkt1 d1]|] eqn:Ec.
  2:{ injection H as <- <-. left. splits; [reflexivity..|discriminate]. }
  destruct (compress_facts (t_dir P t) pkt pkt1 d1 ltac:(lia) Ec) as (z' & Hb & Hd & Hl1).
  set (body := zdrop 5 pkt1) in *. specialize (Hz _ _ Hb).
  pose proof (sane_block _ Hk) as HB. pose proof (d_aadlen_cases (t_dir P t)) as HA.
  set (block := d_block P (t_dir P t)) in *. set (aad := d_aadlen P (t_dir P t)) in *.
  rewrite (u32_small (zlen pkt1)) in H by lia. rewrite (u32_small (zlen pkt1 - aad)) in H by lia.
  destruct (pad_length block (zlen pkt1 - aad) (t_extra P t)) as [p|] eqn:Ep.
  2:{ injection H as <- <-. left. splits; [reflexivity..|discriminate]. }
  apply pad_length_spec in Ep; [|lia..]. destruct Ep as (Pr & Pm & Px).
  cbv zeta in H. rewrite (u32_small (zlen pkt1 + p)) in H by lia.
  rewrite (u32_small (zlen pkt1 + p - 4)) in H by lia.
  rewrite (u32_small (zlen pkt1 + p - aad)) in H by lia.
  set (padding := match d_keys P (t_dir P t) with Some k => if k_none k then repeat 0 (Z.to_nat p) else random_bytes P (t_seed P t) p | None => repeat 0 (Z.to_nat p) end) in *.
  assert (Lp : zlen padding = p).
  { unfold padding. destruct (d_keys P (t_dir P t)) as [k|]; [destruct (k_none k)|]; rewrite ?zlen_random, ?zlen_repeat; lia. }
  assert (Bp : is_bytes padding).
  { unfold padding. destruct (d_keys P (t_dir P t)) as [k|]; [destruct (k_none k)|]; auto using is_bytes_zeros, is_bytes_random. }
  set (frame := be_enc 4 (zlen pkt1 + p - 4) ++ [p] ++ body ++ padding) in *.
  assert (Lf : zlen frame = zlen pkt1 + p).
  { unfold frame. rewrite !zlen_app, zlen_be_enc, zlen_cons, zlen_nil. lia. }
  destruct (p_crypt P (d_ctx P (t_dir P t)) (d_seq P (t_dir P t)) frame (zlen pkt1 + p - aad) aad (d_authlen P (t_dir P t))) as [[out ctx']|] eqn:Ecr.
  2:{ injection H as <- <-. left. splits; [reflexivity..|discriminate]. }
  right. exists body, z', frame, out, ctx'.
  destruct (count_packet P i n (with_ctx P d1 ctx') (zlen pkt1 + p)) as [d2 e2] eqn:Ecp. injection H as <- <-.
  split; [assumption|]. split.
  { exists padding. split; [lia|]. split.
    - unfold frame. rewrite Lp. do 2 f_equal. lia.
    - rewrite Lf. replace (zlen pkt1 + p - aad) with (zlen pkt1 - aad + p) by lia. assumption. }
  split.
  { intros HB'. unfold frame. apply is_bytes_app. split; [apply be_enc_bytes|]. apply is_bytes_app. split; [constructor; [unfold is_byte; lia|constructor]|]. apply is_bytes_app. now split. }
  split.
  { intros Hx. rewrite Lf. replace (zlen pkt1 + p - aad) with (zlen pkt1 - aad + p) by lia. now apply Px. }
  split; [rewrite Lf; assumption|]. split; [reflexivity|]. split; [reflexivity|]. split; [|reflexivity].
  rewrite Lf, <- Hd. assumption.
Qed.


(** ** Delivery *)

Lemma d_mode : forall s r : dir P, d_keys P s = d_keys P r ->
  d_block P s = d_block P r /\ d_aadlen P s = d_aadlen P r /\ d_authlen P s = d_authlen P r /\
  d_mac P s = d_mac P r /\ d_maclen P s = d_maclen P r /\ d_etm P s = d_etm P r /\ d_comp P s = d_comp P r.
Proof.
  intros s r H. unfold d_block, d_aadlen, d_authlen, d_maclen, d_etm, d_mac, d_comp. rewrite H. splits; reflexivity.
Qed.

Lemma framed_length : forall block aad body frame, framed block aad body frame ->
  zlen frame = 4 + be_dec (ztake 4 frame) \/ U32 <= zlen frame - 4.
Proof.
  intros block aad body frame (pd & Hp & -> & _). rewrite ztake_app_exact by now rewrite zlen_be_enc.
  rewrite !zlen_app, zlen_be_enc, zlen_cons, zlen_nil. pose proof (zlen_nonneg _ body).
  destruct (Z_lt_dec (1 + zlen body + zlen pd) U32).
  - left. rewrite be_dec_enc_id; [lia|]. change (256 ^ Z.of_nat 4) with 4294967296. unfold U32 in *. lia.
  - right. lia.
Qed.

Lemma framed_unpack : forall block aad body frame d, framed block aad body frame ->
  unpack P d frame =
  if d_comp P d then
    match p_inflate P (d_z P d) body with Some (b, z') => inr (with_z P d z', b) | None => inl ECompress end
  else inr (d, body).
Proof.
  intros block aad body frame d (pd & Hp & -> & _). unfold unpack.
  assert (E4 : zlen (be_enc 4 (1 + zlen body + zlen pd)) = 4) by now rewrite zlen_be_enc.
  assert (L4 : length (be_enc 4 (1 + zlen body + zlen pd)) = 4%nat) by reflexivity.
  rewrite app_nth2 by lia.
  replace (4 - length (be_enc 4 (1 + zlen body + zlen pd)))%nat with 0%nat by lia. cbn [app nth].
  replace (zlen pd <? 4) with false by lia.
  pose proof (zlen_nonneg _ body). rewrite zlen_app, zlen_cons, zlen_app, E4.
  replace (4 + (zlen body + zlen pd + 1) <? 5) with false by lia.
  change (zlen pd :: body ++ pd) with ([zlen pd] ++ body ++ pd). rewrite app_assoc.
  rewrite zdrop_app_exact by (rewrite zlen_app, E4; reflexivity).
  rewrite zlen_app. replace (zlen body + zlen pd <? zlen pd) with false by lia.
  rewrite ztake_app_exact by lia. reflexivity.
Qed.

Lemma beqb_refl' : forall l, beqb l l = true.
Proof. induction l; cbn [beqb]; [reflexivity|]. rewrite Z.eqb_refl. assumption. Qed.
Lemma beqb_eq' : forall a b, beqb a b = true -> a = b.
Proof.
  induction a as [|x a IH]; intros [|y b] H; cbn [beqb] in H; try discriminate; [reflexivity|].
  apply andb_true_iff in H as [H1 H2]. apply Z.eqb_eq in H1. subst. f_equal. now apply IH.
Qed.

Lemma count_facts : forall i n d len d', count_packet P i n d len = (d', None) ->
  d_keys P d' = d_keys P d /\ d_ctx P d' = d_ctx P d /\ d_z P d' = d_z P d /\
  d_seq P d' = u32 (d_seq P d + 1) /\ d_packets P d' = u32 (d_packets P d + 1).
Proof.
  intros i n d len d' H. unfold count_packet in H.
  destruct ((u32 (d_seq P d + 1) =? 0) && i); [discriminate|].
  destruct ((u32 (d_packets P d + 1) =? 0) && negb n); [discriminate|]. injection H as <-. splits; reflexivity.
Qed.

Section Deliver.
Variables (i n : bool) (R : CS P -> CS P -> Prop) (Q : ZS P -> ZS P -> Prop) (ok : option keys).
Variables (block aad auth : Z).
Hypothesis HB : forall d, d_keys P d = ok -> d_block P d = block /\ d_aadlen P d = aad /\ d_authlen P d = auth.
Hypothesis HC : inverse_cipher P block aad auth R.
Hypothesis HZ : inverse_comp P Q.
Hypothesis HM : mac_long P ok.
Hypothesis HS : keys_sane ok.

(** One packet in flight: what the sender did. *)
Record flight (s s' : dir P) (content frame out tag : list Z) : Prop := {
  f_keys : d_keys P s = ok;
  f_body : exists body z' ctx',
    body_for P s content body z' /\ framed block aad body frame /\ is_bytes frame /\
    p_crypt P (d_ctx P s) (d_seq P s) frame (zlen frame - aad) aad auth = Some (out, ctx') /\
    count_packet P i n (with_ctx P (with_z P s z') ctx') (zlen frame) = (s', None);
  f_tag : tag = tag_of s out frame;
  f_fits : zlen frame <= 262148;
  f_bytes : is_bytes content
}.

Lemma count_other : forall d e len d', count_packet P i n d len = (d', None) ->
  d_seq P e = d_seq P d -> d_packets P e = d_packets P d -> forall len', exists e', count_packet P i n e len' = (e', None).
Proof.
  intros d e len d' H H1 H2 len'. unfold count_packet in *. rewrite H1, H2.
  destruct ((u32 (d_seq P d + 1) =? 0) && i); [discriminate|].
  destruct ((u32 (d_packets P d + 1) =? 0) && negb n); [discriminate|]. eexists. reflexivity.
Qed.

(** Unpacking the sent packet at the receiver. *)
Lemma deliver_ok : forall s s' content frame out tag dr ctxr' input pl ty,
  flight s s' content frame out tag -> content = ty :: pl -> 1 <= ty ->
  d_keys P dr = ok -> d_seq P dr = d_seq P s -> d_packets P dr = d_packets P s -> Q (d_z P s) (d_z P dr) ->
  d_ctx P dr = ctxr' ->
  exists dr', deliver P i n dr input frame (zlen frame - 4) = RxMsg P (mkRx P dr' input pl (zlen frame - 4) 0) ty pl (d_seq P s) /\
    d_keys P dr' = ok /\ d_ctx P dr' = ctxr' /\ Q (d_z P s') (d_z P dr') /\ d_seq P dr' = d_seq P s' /\ d_packets P dr' = d_packets P s'.
Proof.
  intros s s' content frame out tag dr ctxr' input pl ty F Hc Hty Hk Hs Hp Hq Hx.
  destruct F as [Fk (body & z' & ctx' & Hb & Hf & Hbf & Hcr & Hct) Ft Ff Fb].
  unfold deliver.
  destruct (count_other _ dr _ _ Hct) with (len' := u32 (zlen frame - 4 + 4)) as [dr1 Hr1]; [exact Hs|exact Hp|].
  rewrite Hr1. apply count_facts in Hr1. destruct Hr1 as (K1 & K2 & K3 & K4 & K5).
  apply count_facts in Hct. destruct Hct as (C1 & C2 & C3 & C4 & C5). cbn [with_ctx with_z d_keys d_ctx d_z d_seq d_packets] in *.
  rewrite (framed_unpack _ _ _ _ dr1 Hf).
  unfold body_for in Hb. unfold d_comp. rewrite K1, Hk. rewrite Fk in Hb.
  destruct ok as [k|]; [destruct (k_comp_on k) eqn:Ek|].
  - destruct (HZ _ _ _ _ _ Hq Hb Fb) as (By & Ly & r' & Hi & Hq').
    rewrite K3, Hi. subst content. replace (ty <? 1) with false by lia.
    eexists. split; [rewrite Hs; reflexivity|]. cbn [with_z d_keys d_ctx d_z d_seq d_packets].
    splits; try congruence; try (rewrite C3; assumption).
  - destruct Hb as [Hb1 Hb2]. rewrite Hb1, Hc. replace (ty <? 1) with false by lia.
    eexists. split; [rewrite Hs; reflexivity|]. splits; try congruence; try (rewrite C3, K3, Hb2; assumption).
  - destruct Hb as [Hb1 Hb2]. rewrite Hb1, Hc. replace (ty <? 1) with false by lia.
    eexists. split; [rewrite Hs; reflexivity|]. splits; try congruence; try (rewrite C3, K3, Hb2; assumption).
Qed.


Lemma tag_length : forall s out frame, d_keys P s = ok -> zlen (tag_of s out frame) = d_maclen P s /\ 0 <= d_maclen P s <= 64.
Proof.
  intros s out frame Hk. unfold tag_of, d_maclen, d_mac. rewrite Hk. unfold mac_long in HM. destruct ok as [k|]; [|rewrite zlen_nil; lia].
  destruct ((k_authlen k =? 0) && m_enabled (k_mac k)); [|rewrite zlen_nil; lia].
  destruct HM as [H1 H2]. split; [|lia]. unfold mac_compute. apply zlen_ztake. split; [lia|]. apply H2.
Qed.

Lemma mac_check_own : forall k m sq data rest, 0 <= m_len m <= zlen (p_mac P k sq data) ->
  mac_check P k m sq data (mac_compute P k m sq data ++ rest) = true.
Proof.
  intros k m sq data rest H. unfold mac_check, mac_compute. rewrite (ztake_app_exact _ (m_len m)).
  - apply beqb_refl'.
  - symmetry. now apply zlen_ztake.
Qed.

Lemma frame_bounds : forall body frame, framed block aad body frame -> (block = 8 \/ block = 16) -> (aad = 0 \/ aad = 4) ->
  9 <= zlen frame /\ (aad = 0 -> block <= zlen frame) /\ (zlen frame - aad) mod block = 0.
Proof.
  intros body frame (pd & Hp & Hf & Hm) Hb Ha. pose proof (zlen_nonneg _ body).
  assert (L : zlen frame = 5 + zlen body + zlen pd) by (rewrite Hf, !zlen_app, zlen_be_enc, zlen_cons, zlen_nil; lia).
  split; [lia|]. split; [|assumption]. intros ->. rewrite Z.sub_0_r in Hm.
  destruct (Z_lt_dec (zlen frame) block); [|lia]. rewrite Z.mod_small in Hm by lia. lia.
Qed.

Lemma block_cases : forall d, d_keys P d = ok -> (block = 8 \/ block = 16) /\ (aad = 0 \/ aad = 4) /\ 0 <= auth <= 16 /\ (aad = 0 -> auth = 0).
Proof.
  intros d Hd. destruct (HB d Hd) as (<- & <- & <-). rewrite <- Hd in HS.
  split; [now apply sane_block|]. split; [apply d_aadlen_cases|]. split; [now apply sane_auth|].
  unfold d_aadlen. destruct (d_authlen P d =? 0) eqn:E; [lia|]. rewrite orb_true_r. lia.
Qed.

Definition step_in (s : dir P) (dr : dir P) : Prop := in_step P R Q s dr.

Lemma d_mac_some : forall d k m, d_mac P d = Some (k, m) -> d_keys P d = Some k /\ m = k_mac k /\ k_authlen k = 0 /\ m_enabled m = true.
Proof.
  intros d k m H. unfold d_mac in H. destruct (d_keys P d) as [k'|]; [|discriminate].
  destruct ((k_authlen k' =? 0) && m_enabled (k_mac k')) eqn:E; [|discriminate]. injection H as <- <-.
  apply andb_true_iff in E as [E1 E2]. splits; auto. lia.
Qed.
Lemma mac_long_some : forall d k m, d_keys P d = ok -> d_mac P d = Some (k, m) ->
  0 <= m_len m <= 64 /\ forall sq data, m_len m <= zlen (p_mac P k sq data).
Proof.
  intros d k m Hd H. apply d_mac_some in H as (H1 & -> & _). rewrite Hd in H1. unfold mac_long in HM. now rewrite H1 in HM.
Qed.

(** The end of [rx_body], shared by both framings: the packet is complete,
    [incoming ++ plain] is the sent frame. *)
Lemma body_end : forall s s' content frame out tag dr0 more ty pl,
  flight s s' content frame out tag -> content = ty :: pl -> 1 <= ty ->
  d_keys P dr0 = ok -> d_seq P dr0 = d_seq P s -> d_packets P dr0 = d_packets P s -> Q (d_z P s) (d_z P dr0) ->
  forall need ctxr' oldctx (OC : d_ctx P dr0 = oldctx),
  exists dr', 
    match d_mac P s with
        | Some (k, m) =>
          if negb (m_etm m) && negb (mac_check P k m (d_seq P s) frame (tag ++ more)) then
            if PACKET_MAX_SIZE <? u32 (need + block) then RxErr P EInternal
            else start_discard P (mkRx P (with_ctx P dr0 ctxr') (tag ++ more) frame (zlen frame - 4) 0) (PACKET_MAX_SIZE - need - block)
          else deliver P i n (with_ctx P dr0 ctxr') (zdrop (m_len m) (tag ++ more)) frame (zlen frame - 4)
        | None => deliver P i n (with_ctx P dr0 ctxr') (tag ++ more) frame (zlen frame - 4)
        end = RxMsg P (mkRx P dr' more pl (zlen frame - 4) 0) ty pl (d_seq P s) /\
    d_keys P dr' = ok /\ d_ctx P dr' = ctxr' /\ Q (d_z P s') (d_z P dr') /\ d_seq P dr' = d_seq P s' /\ d_packets P dr' = d_packets P s'.
Proof.
  intros s s' content frame out tag dr0 more ty pl F Hc Hty Kr Ks Kp Kq need ctxr' oldctx _.
  pose proof F as F0. destruct F as [Fk _ Ft Ff Fb].
  destruct (tag_length s out frame Fk) as (Lt & _). rewrite <- Ft in Lt. unfold d_maclen in Lt.
  unfold tag_of in Ft. destruct (d_mac P s) as [[k m]|] eqn:Em.
  - destruct (mac_long_some s k m Fk Em) as (Ml1 & Ml2).
    replace (negb (m_etm m) && negb (mac_check P k m (d_seq P s) frame (tag ++ more))) with false.
    2:{ destruct (m_etm m) eqn:Et; [reflexivity|]. rewrite Ft. rewrite mac_check_own; [reflexivity|]. split; [lia|apply Ml2]. }
    rewrite zdrop_app_exact by lia.
    exact (deliver_ok s s' content frame out tag (with_ctx P dr0 ctxr') ctxr' more pl ty F0 Hc Hty Kr Ks Kp Kq eq_refl).
  - subst tag. cbn [app]. 
    exact (deliver_ok s s' content frame out [] (with_ctx P dr0 ctxr') ctxr' more pl ty F0 Hc Hty Kr Ks Kp Kq eq_refl).
Qed.

(** A complete packet, length field in clear. *)
Lemma body_whole : forall s s' content frame out tag dr more ty pl,
  flight s s' content frame out tag -> content = ty :: pl -> 1 <= ty -> aad <> 0 -> step_in s dr ->
  exists dr', rx_body P i n (mkRx P dr (out ++ tag ++ more) [] (zlen frame - 4) 0) =
    RxMsg P (mkRx P dr' more pl (zlen frame - 4) 0) ty pl (d_seq P s) /\ step_in s' dr'.
Proof.
  intros s s' content frame out tag dr more ty pl F Hc Hty Ha (Hk & HR & HQ & Hs & Hp).
  pose proof F as F0.
  destruct F as [Fk (body & z' & ctx' & Hb & Hf & Hbf & Hcr & Hct) Ft Ff Fb].
  assert (Kr : d_keys P dr = ok) by congruence.
  destruct (block_cases s Fk) as (Bl & Aa & Au & _). destruct (HB dr Kr) as (B1 & B2 & B3).
  destruct (frame_bounds _ _ Hf Bl Aa) as (L1 & _ & Lm).
  assert (Lo : zlen out = zlen frame + auth).
  { rewrite (ic_length _ _ _ _ _ HC (d_ctx P s) (d_seq P s) frame (zlen frame - aad) out ctx' ltac:(lia) Lm Hcr). lia. }
  destruct (tag_length s out frame Fk) as (Lt & Lt2). rewrite <- Ft in Lt.
  destruct (ic_whole _ _ _ _ _ HC Ha (d_ctx P s) (d_ctx P dr) (d_seq P s) frame (zlen frame - aad) out ctx' HR Hbf ltac:(lia) Lm Hcr) as (cr' & Hdec & HR').
  destruct (d_mode s dr Hk) as (_ & _ & _ & Mm & Ml & _).
  unfold rx_body. cbn [r_dir r_input r_incoming r_packlen r_discard]. rewrite B1, B2, B3.
  replace (aad =? 0) with false by lia. rewrite <- Ml.
  assert (Em : (zlen frame - 4) mod block = 0) by (replace 4 with aad by lia; assumption).
  rewrite Em. cbn [Z.eqb negb].
  assert (E1 : u32 (aad + (zlen frame - 4)) = zlen frame) by (rewrite u32_small; lia).
  rewrite E1. rewrite (u32_small (zlen frame + auth)) by lia. rewrite (u32_small (zlen frame + auth + d_maclen P s)) by lia.
  rewrite !zlen_app. pose proof (zlen_nonneg _ more).
  replace (zlen out + (zlen tag + zlen more) <? zlen frame + auth + d_maclen P s) with false by lia.
  rewrite (ztake_app_exact _ (zlen frame + auth)) by lia. rewrite (zdrop_app_exact _ (zlen frame + auth)) by lia.
  rewrite <- Hs. replace (zlen frame - aad) with (zlen frame - 4) in Hdec by lia. rewrite Hdec. cbn [app].
  rewrite <- Mm.
  replace (negb _) with false.
  2:{ symmetry. apply negb_false_iff. unfold tag_of in Ft. destruct (d_mac P s) as [[k m]|] eqn:Emac; [|reflexivity].
      destruct (m_etm m) eqn:Et; [|reflexivity].
      destruct (mac_long_some s k m Fk Emac) as (Ml1 & Ml2). destruct (d_mac_some _ _ _ Emac) as (_ & _ & A0 & _).
      assert (auth = 0). { destruct (HB s Fk) as (_ & _ & X). rewrite <- X. unfold d_authlen. apply d_mac_some in Emac as (-> & _). assumption. }
      rewrite ztake_app_exact by lia. rewrite Ft. apply mac_check_own. split; [lia|apply Ml2]. }
  destruct (body_end s s' content frame out tag dr more ty pl F0 Hc Hty Kr (eq_sym Hs) (eq_sym Hp) HQ (zlen frame - 4) cr' (d_ctx P dr) eq_refl) as (dr' & E & D1 & D2 & D3 & D4 & D5).
  exists dr'. split; [exact E|].
  assert (HR2 : R (d_ctx P s') (d_ctx P dr')).
  { rewrite D2. apply count_facts in Hct as (_ & -> & _). exact HR'. }
  unfold step_in, in_step. apply count_facts in Hct as (C1 & _). cbn [with_ctx with_z d_keys] in C1. splits; congruence || assumption.
Qed.

(** A complete packet whose first block has been decrypted. *)
Lemma body_rest : forall s s' content frame out tag dr r1 r2 more ty pl,
  flight s s' content frame out tag -> content = ty :: pl -> 1 <= ty -> aad = 0 ->
  d_keys P dr = ok -> d_seq P dr = d_seq P s -> d_packets P dr = d_packets P s -> Q (d_z P s) (d_z P dr) ->
  d_ctx P dr = r1 ->
  p_crypt P r1 (d_seq P s) (zdrop block out) (zlen frame - block) 0 auth = Some (zdrop block frame, r2) ->
  (forall c, p_crypt P (d_ctx P s) (d_seq P s) frame (zlen frame - aad) aad auth = Some (out, c) -> R c r2) ->
  exists dr', rx_body P i n (mkRx P dr (zdrop block out ++ tag ++ more) (ztake block frame) (zlen frame - 4) 0) =
    RxMsg P (mkRx P dr' more pl (zlen frame - 4) 0) ty pl (d_seq P s) /\ step_in s' dr'.
Proof.
  intros s s' content frame out tag dr r1 r2 more ty pl F Hc Hty Ha Kr Ks Kp Kq Kc Hdec HRR.
  pose proof F as F0.
  destruct F as [Fk (body & z' & ctx' & Hb & Hf & Hbf & Hcr & Hct) Ft Ff Fb].
  specialize (HRR _ Hcr).
  destruct (block_cases s Fk) as (Bl & Aa & Au & Au0). specialize (Au0 Ha). destruct (HB dr Kr) as (B1 & B2 & B3).
  destruct (frame_bounds _ _ Hf Bl Aa) as (L1 & L2 & Lm). specialize (L2 Ha).
  assert (Lo : zlen out = zlen frame).
  { rewrite (ic_length _ _ _ _ _ HC (d_ctx P s) (d_seq P s) frame (zlen frame - aad) out ctx' ltac:(lia) Lm Hcr). lia. }
  destruct (tag_length s out frame Fk) as (Lt & Lt2). rewrite <- Ft in Lt.
  assert (Hk : d_keys P s = d_keys P dr) by congruence.
  destruct (d_mode s dr Hk) as (_ & _ & _ & Mm & Ml & _).
  unfold rx_body. cbn [r_dir r_input r_incoming r_packlen r_discard]. rewrite B1, B2, B3.
  replace (aad =? 0) with true by lia. rewrite <- Ml.
  rewrite (u32_small (4 + (zlen frame - 4) - block)) by lia.
  replace (4 + (zlen frame - 4) - block) with (zlen frame - block) by lia.
  assert (Em : (zlen frame - block) mod block = 0).
  { rewrite Ha, Z.sub_0_r in Lm. replace (zlen frame - block) with (zlen frame + (-1) * block) by lia. rewrite Z.mod_add by lia. assumption. }
  rewrite Em. cbn [Z.eqb negb]. rewrite Au0 in Hdec |- *. rewrite Ha.
  assert (E1 : u32 (0 + (zlen frame - block)) = zlen frame - block) by (rewrite u32_small; lia).
  rewrite E1. rewrite Z.add_0_r. rewrite (u32_small (zlen frame - block)) by lia. rewrite (u32_small (zlen frame - block + d_maclen P s)) by lia.
  rewrite !zlen_app. pose proof (zlen_nonneg _ more). rewrite zlen_zdrop by lia.
  replace (zlen out - block + (zlen tag + zlen more) <? zlen frame - block + d_maclen P s) with false by lia.
  rewrite (ztake_app_exact _ (zlen frame - block)) by (rewrite zlen_zdrop by lia; lia).
  rewrite (zdrop_app_exact _ (zlen frame - block)) by (rewrite zlen_zdrop by lia; lia).
  rewrite Ks, Kc, Hdec. rewrite ztake_zdrop.
  rewrite <- Mm.
  replace (negb _) with false.
  2:{ symmetry. apply negb_false_iff. destruct (d_mac P s) as [[k m]|] eqn:Emac; [|reflexivity].
      destruct (m_etm m) eqn:Et; [|reflexivity]. exfalso.
      assert (d_aadlen P s = 4) by (unfold d_aadlen, d_etm; rewrite Emac, Et; reflexivity).
      destruct (HB s Fk) as (_ & X & _). lia. }
  destruct (body_end s s' content frame out tag dr more ty pl F0 Hc Hty Kr Ks Kp Kq (zlen frame - block) r2 (d_ctx P dr) eq_refl) as (dr' & E & D1 & D2 & D3 & D4 & D5).
  exists dr'. split; [exact E|].
  assert (HR2 : R (d_ctx P s') (d_ctx P dr')).
  { rewrite D2. apply count_facts in Hct as (_ & -> & _). exact HRR. }
  unfold step_in, in_step. apply count_facts in Hct as (C1 & _). cbn [with_ctx with_z d_keys] in C1. splits; congruence || assumption.
Qed.


Lemma prefix_cases : forall (a rest w tail : list Z), a ++ rest = w ++ tail ->
  zlen a < zlen w \/ exists a', a = w ++ a' /\ a' ++ rest = tail.
Proof.
  intros a rest w tail H. destruct (Z_lt_dec (zlen a) (zlen w)) as [|N]; [now left|]. right.
  exists (zdrop (zlen w) a). assert (Ht : ztake (zlen w) (a ++ rest) = w) by (rewrite H; now apply ztake_app_exact).
  pose proof (zlen_nonneg _ w). rewrite ztake_app_l in Ht by lia. split.
  - rewrite <- Ht at 1. symmetry. apply ztake_zdrop.
  - assert (Hd : zdrop (zlen w) (a ++ rest) = tail) by (rewrite H; now apply zdrop_app_exact).
    rewrite zdrop_app_l in Hd by lia. assumption.
Qed.

(** Not enough data yet. *)
Lemma body_short : forall s s' content frame out tag dr input incoming,
  flight s s' content frame out tag -> d_keys P dr = ok ->
  zlen input < zlen out + zlen tag - (if aad =? 0 then block else 0) ->
  rx_body P i n (mkRx P dr input incoming (zlen frame - 4) 0) = RxNone P (mkRx P dr input incoming (zlen frame - 4) 0).
Proof.
  intros s s' content frame out tag dr input incoming F Kr Hl.
  destruct F as [Fk (body & z' & ctx' & Hb & Hf & Hbf & Hcr & Hct) Ft Ff Fb].
  destruct (block_cases s Fk) as (Bl & Aa & Au & Au0). destruct (HB dr Kr) as (B1 & B2 & B3).
  destruct (frame_bounds _ _ Hf Bl Aa) as (L1 & L2 & Lm).
  assert (Lo : zlen out = zlen frame + auth).
  { rewrite (ic_length _ _ _ _ _ HC (d_ctx P s) (d_seq P s) frame (zlen frame - aad) out ctx' ltac:(lia) Lm Hcr). lia. }
  destruct (tag_length s out frame Fk) as (Lt & Lt2). rewrite <- Ft in Lt.
  assert (Hk : d_keys P s = d_keys P dr) by congruence.
  destruct (d_mode s dr Hk) as (_ & _ & _ & _ & Ml & _).
  unfold rx_body. cbn [r_dir r_input r_incoming r_packlen r_discard]. rewrite B1, B2, B3. rewrite <- Ml.
  destruct (aad =? 0) eqn:Ea.
  - assert (Ha : aad = 0) by lia. specialize (L2 Ha). specialize (Au0 Ha).
    rewrite (u32_small (4 + (zlen frame - 4) - block)) by lia.
    replace (4 + (zlen frame - 4) - block) with (zlen frame - block) by lia.
    assert (Em : (zlen frame - block) mod block = 0).
    { rewrite Ha, Z.sub_0_r in Lm. replace (zlen frame - block) with (zlen frame + (-1) * block) by lia. rewrite Z.mod_add by lia. assumption. }
    rewrite Em. cbn [Z.eqb negb]. rewrite (u32_small (aad + (zlen frame - block))) by lia.
    rewrite (u32_small (aad + (zlen frame - block) + auth)) by lia. rewrite (u32_small (aad + (zlen frame - block) + auth + d_maclen P s)) by lia.
    replace (zlen input <? aad + (zlen frame - block) + auth + d_maclen P s) with true by lia. reflexivity.
  - assert (Em : (zlen frame - 4) mod block = 0) by (replace 4 with aad by lia; assumption).
    rewrite Em. cbn [Z.eqb negb]. rewrite (u32_small (aad + (zlen frame - 4))) by lia.
    rewrite (u32_small (aad + (zlen frame - 4) + auth)) by lia. rewrite (u32_small (aad + (zlen frame - 4) + auth + d_maclen P s)) by lia.
    replace (zlen input <? aad + (zlen frame - 4) + auth + d_maclen P s) with true by lia. reflexivity.
Qed.

(** A list of packets in flight. *)
Inductive flights : dir P -> list (list Z) -> list Z -> dir P -> Prop :=
| fl_nil : forall s, d_keys P s = ok -> flights s [] [] s
| fl_cons : forall s s1 s' ty pl frame out tag cs str,
    flight s s1 (ty :: pl) frame out tag -> 1 <= ty -> flights s1 cs str s' ->
    flights s ((ty :: pl) :: cs) (out ++ tag ++ str) s'.

(** Where the receiver stands: between packets, or inside one. *)
Inductive stand (r : rx P) (rest : list Z) (s s' : dir P) : list (list Z) -> Prop :=
| st_fresh : forall cs str, flights s cs str s' -> r_packlen P r = 0 -> step_in s (r_dir P r) ->
    r_input P r ++ rest = str -> stand r rest s s' cs
| st_whole : forall s1 ty pl cs frame out tag str, aad <> 0 ->
    flight s s1 (ty :: pl) frame out tag -> 1 <= ty -> flights s1 cs str s' ->
    r_packlen P r = zlen frame - 4 -> r_incoming P r = [] -> step_in s (r_dir P r) ->
    r_input P r ++ rest = out ++ tag ++ str -> stand r rest s s' ((ty :: pl) :: cs)
| st_rest : forall s1 ty pl cs frame out tag str r1 r2, aad = 0 ->
    flight s s1 (ty :: pl) frame out tag -> 1 <= ty -> flights s1 cs str s' ->
    r_packlen P r = zlen frame - 4 -> r_incoming P r = ztake block frame ->
    d_keys P (r_dir P r) = ok -> d_seq P (r_dir P r) = d_seq P s -> d_packets P (r_dir P r) = d_packets P s ->
    Q (d_z P s) (d_z P (r_dir P r)) -> d_ctx P (r_dir P r) = r1 ->
    p_crypt P r1 (d_seq P s) (zdrop block out) (zlen frame - block) 0 auth = Some (zdrop block frame, r2) ->
    (forall c, p_crypt P (d_ctx P s) (d_seq P s) frame (zlen frame - aad) aad auth = Some (out, c) -> R c r2) ->
    r_input P r ++ rest = zdrop block out ++ tag ++ str -> stand r rest s s' ((ty :: pl) :: cs).

Definition poll_post (rest : list Z) (s s' : dir P) (cs : list (list Z)) (o : rx_out P) : Prop :=
  match o with
  | RxErr _ _ => False
  | RxNone _ r' => r_discard P r' = 0 /\ stand r' rest s s' cs /\ (rest = [] -> cs = [])
  | RxMsg _ r' ty pl sq => r_discard P r' = 0 /\ sq = d_seq P s /\
      exists s1 cs1, cs = (ty :: pl) :: cs1 /\ d_seq P s1 = u32 (d_seq P s + 1) /\ stand (rx_ready P r') rest s1 s' cs1
  end.

Lemma flight_seq : forall s s1 c frame out tag, flight s s1 c frame out tag -> d_seq P s1 = u32 (d_seq P s + 1).
Proof. intros s s1 c frame out tag [_ (b & z' & cx & _ & _ & _ & _ & H) _ _ _]. now apply count_facts in H as (_ & _ & _ & -> & _). Qed.

Lemma flight_lengths : forall s s1 c frame out tag, flight s s1 c frame out tag ->
  zlen out = zlen frame + auth /\ 9 <= zlen frame /\ (aad = 0 -> block <= zlen frame) /\ 0 <= zlen tag /\
  (block = 8 \/ block = 16) /\ (aad = 0 \/ aad = 4) /\ (aad = 0 -> auth = 0) /\ 0 <= auth /\ (zlen frame - aad) mod block = 0.
Proof.
  intros s s' content frame out tag F.
  destruct F as [Fk (body & z' & ctx' & Hb & Hf & Hbf & Hcr & Hct) Ft Ff Fb].
  destruct (block_cases s Fk) as (Bl & Aa & Au & Au0).
  destruct (frame_bounds _ _ Hf Bl Aa) as (L1 & L2 & Lm).
  assert (Lo : zlen out = zlen frame + auth).
  { rewrite (ic_length _ _ _ _ _ HC (d_ctx P s) (d_seq P s) frame (zlen frame - aad) out ctx' ltac:(lia) Lm Hcr). lia. }
  splits; auto; try lia. apply zlen_nonneg.
Qed.

Lemma poll_whole : forall r rest s s' s1 ty pl cs frame out tag str, aad <> 0 ->
    flight s s1 (ty :: pl) frame out tag -> 1 <= ty -> flights s1 cs str s' ->
    r_discard P r = 0 -> r_packlen P r = zlen frame - 4 -> r_incoming P r = [] -> step_in s (r_dir P r) ->
    r_input P r ++ rest = out ++ tag ++ str -> poll_post rest s s' ((ty :: pl) :: cs) (rx_body P i n r).
Proof.
  intros r rest s s' s1 ty pl cs frame out tag str Ha F Hty Fl Hd Hp Hi St He.
  destruct r as [dr input incoming packlen disc]. cbn [r_dir r_input r_incoming r_packlen r_discard] in *. subst packlen incoming disc.
  assert (Kr : d_keys P dr = ok). { destruct St as (E & _). destruct F as [Fk _ _ _ _]. congruence. }
  rewrite app_assoc in He. destruct (prefix_cases _ _ _ _ He) as [Hs|(more & -> & Hm)].
  - rewrite (body_short s s1 (ty :: pl) frame out tag); [|assumption|assumption|rewrite zlen_app in Hs; destruct (aad =? 0) eqn:E; lia].
    cbn [poll_post r_discard]. split; [reflexivity|]. split.
    + eapply st_whole; eauto. rewrite app_assoc. exact He.
    + intros ->. exfalso. rewrite app_nil_r in He. subst input. rewrite zlen_app in Hs. pose proof (zlen_nonneg _ str). rewrite !zlen_app in Hs. lia.
  - rewrite <- app_assoc. destruct (body_whole s s1 (ty :: pl) frame out tag dr more ty pl F eq_refl Hty Ha St) as (dr' & E & St').
    rewrite E. cbn [poll_post r_discard]. split; [reflexivity|]. split; [reflexivity|]. exists s1, cs. split; [reflexivity|].
    split; [now apply flight_seq in F|]. eapply st_fresh; eauto.
Qed.

Lemma poll_rest : forall r rest s s' s1 ty pl cs frame out tag str r1 r2, aad = 0 ->
    flight s s1 (ty :: pl) frame out tag -> 1 <= ty -> flights s1 cs str s' ->
    r_discard P r = 0 -> r_packlen P r = zlen frame - 4 -> r_incoming P r = ztake block frame ->
    d_keys P (r_dir P r) = ok -> d_seq P (r_dir P r) = d_seq P s -> d_packets P (r_dir P r) = d_packets P s ->
    Q (d_z P s) (d_z P (r_dir P r)) -> d_ctx P (r_dir P r) = r1 ->
    p_crypt P r1 (d_seq P s) (zdrop block out) (zlen frame - block) 0 auth = Some (zdrop block frame, r2) ->
    (forall c, p_crypt P (d_ctx P s) (d_seq P s) frame (zlen frame - aad) aad auth = Some (out, c) -> R c r2) ->
    r_input P r ++ rest = zdrop block out ++ tag ++ str -> poll_post rest s s' ((ty :: pl) :: cs) (rx_body P i n r).
Proof.
  intros r rest s s' s1 ty pl cs frame out tag str r1 r2 Ha F Hty Fl Hd Hp Hi K1 K2 K3 K4 K5 K6 K7 He.
  destruct r as [dr input incoming packlen disc]. cbn [r_dir r_input r_incoming r_packlen r_discard] in *. subst packlen incoming disc.
  destruct (flight_lengths _ _ _ _ _ _ F) as (Lo & L1 & L2 & Lt & _). specialize (L2 Ha).
  pose proof He as He'. rewrite app_assoc in He. destruct (prefix_cases _ _ _ _ He) as [Hs|(more & -> & Hm)].
  - destruct (flight_lengths _ _ _ _ _ _ F) as (_ & _ & _ & _ & Bl & _ & _ & Au & _).
    rewrite zlen_app, zlen_zdrop in Hs by lia.
    rewrite (body_short s s1 (ty :: pl) frame out tag); [|assumption|assumption|replace (aad =? 0) with true by lia; lia].
    cbn [poll_post r_discard]. split; [reflexivity|]. split.
    + eapply st_rest; eauto.
    + intros ->. exfalso. rewrite app_nil_r in He'. subst input. pose proof (zlen_nonneg _ str). rewrite !zlen_app, zlen_zdrop in Hs by lia. lia.
  - rewrite <- app_assoc. destruct (body_rest s s1 (ty :: pl) frame out tag dr r1 r2 more ty pl F eq_refl Hty Ha K1 K2 K3 K4 K5 K6 K7) as (dr' & E & St').
    rewrite E. cbn [poll_post r_discard]. split; [reflexivity|]. split; [reflexivity|]. exists s1, cs. split; [reflexivity|].
    split; [now apply flight_seq in F|]. eapply st_fresh; eauto.
Qed.

Lemma poll_ok : forall sseq r rest s s' cs, r_discard P r = 0 -> stand r rest s s' cs -> poll_post rest s s' cs (rx_poll P i n sseq r).
Proof.
  intros sseq r rest s s' cs Hd St. unfold rx_poll. rewrite Hd. cbn [Z.eqb negb].
  destruct St as [cs str Fl Hp Si He|s1 ty pl cs frame out tag str Ha F Hty Fl Hp Hi Si He|s1 ty pl cs frame out tag str r1 r2 Ha F Hty Fl Hp Hi K1 K2 K3 K4 K5 K6 K7 He].
  - rewrite Hp. cbn [Z.eqb]. destruct r as [dr input incoming packlen disc]. cbn [r_dir r_input r_incoming r_packlen r_discard] in *. subst packlen disc.
    destruct Si as (Hk & HR & HQ & Hs & Hpk).
    destruct Fl as [s Fk|s s1 s' ty pl frame out tag cs str F Hty Fl].
    + apply app_eq_nil in He as [-> ->].
      assert (Kr : d_keys P dr = ok) by congruence. destruct (HB dr Kr) as (B1 & B2 & B3). rewrite B1, B2.
      destruct (block_cases s Fk) as (Bl & _).
      assert (PP : poll_post [] s s [] (RxNone P (mkRx P dr [] incoming 0 0))).
      { cbn [poll_post r_discard]. split; [reflexivity|]. split; [|reflexivity].
        apply st_fresh with (str := []); [now constructor|reflexivity|unfold step_in, in_step; cbn [r_dir]; auto|reflexivity]. }
      destruct (aad =? 0) eqn:Ea; cbn [negb].
      * rewrite zlen_nil. replace (0 <? block) with true by lia. exact PP.
      * rewrite (ic_getlen_short _ _ _ _ _ HC) by (rewrite zlen_nil; lia). exact PP.
    + pose proof F as F0. destruct F as [Fk (body & z' & ctx' & Hb & Hf & Hbf & Hcr & Hct) Ft Ff Fb].
      destruct (flight_lengths _ _ _ _ _ _ F0) as (Lo & L1 & L2 & Lt & Bl & Aa & Au0 & Au & Lm).
      assert (Kr : d_keys P dr = ok) by congruence. destruct (HB dr Kr) as (B1 & B2 & B3). rewrite B1, B2.
      destruct (framed_length _ _ _ _ Hf) as [Lf|Lf]; [|unfold U32 in Lf; lia].
      destruct (aad =? 0) eqn:Ea; cbn [negb].
      * assert (Ha : aad = 0) by lia. specialize (L2 Ha). specialize (Au0 Ha).
        assert (Lb : zlen (ztake block out) = block) by (apply zlen_ztake; lia).
        destruct (zlen input <? block) eqn:Es.
        { cbn [poll_post r_discard]. split; [reflexivity|]. split.
          - apply st_fresh with (str := out ++ tag ++ str); [econstructor; eauto|reflexivity|unfold step_in, in_step; cbn [r_dir]; auto|exact He].
          - intros ->. exfalso. rewrite app_nil_r in He. subst input. pose proof (zlen_nonneg _ str). rewrite !zlen_app in Es. lia. }
        destruct (ic_blocks _ _ _ _ _ HC Ha (d_ctx P s) (d_ctx P dr) (d_seq P s) sseq frame (zlen frame) out ctx' HR Hbf eq_refl) as (r1 & r2 & D1 & D2 & D3).
        { rewrite Ha, Z.sub_0_r in Lm. assumption. } { assumption. }
        { rewrite Ha, Z.sub_0_r in Hcr. assumption. }
        assert (Hpre : ztake block input = ztake block out).
        { assert (X : ztake block (input ++ rest) = ztake block (out ++ tag ++ str)) by now rewrite He.
          rewrite !ztake_app_l in X by lia. assumption. }
        rewrite Hpre, D1.
        assert (H4 : ztake 4 (ztake block frame) = ztake 4 frame).
        { rewrite <- (ztake_zdrop _ block frame) at 2. rewrite ztake_app_l; [reflexivity|]. rewrite zlen_ztake by lia. lia. }
        rewrite H4. replace (be_dec (ztake 4 frame)) with (zlen frame - 4) by lia.
        unfold PACKET_MAX_SIZE. replace ((zlen frame - 4 <? 5) || (262144 <? zlen frame - 4)) with false by lia.
        apply poll_rest with (s1 := s1) (frame := frame) (out := out) (tag := tag) (str := str) (r1 := r1) (r2 := r2); cbn [r_dir r_input r_incoming r_packlen r_discard with_ctx d_keys d_seq d_packets d_z d_ctx]; auto.
        { intros c Hc. rewrite Hc in Hcr. injection Hcr as ->. assumption. }
        cbn [r_input]. assert (X : zdrop block (input ++ rest) = zdrop block (out ++ tag ++ str)) by now rewrite He.
        rewrite !zdrop_app_l in X by lia. assumption.
      * assert (A4 : aad = 4) by lia.
        destruct (Z_lt_dec (zlen input) 4) as [Hs4|Hs4].
        { rewrite (ic_getlen_short _ _ _ _ _ HC) by assumption. cbn [poll_post r_discard]. split; [reflexivity|]. split.
          - apply st_fresh with (str := out ++ tag ++ str); [econstructor; eauto|reflexivity|unfold step_in, in_step; cbn [r_dir]; auto|exact He].
          - intros ->. exfalso. rewrite app_nil_r in He. subst input. pose proof (zlen_nonneg _ str). rewrite !zlen_app in Hs4. lia. }
        assert (Hpre : ztake 4 input = ztake 4 out).
        { assert (X : ztake 4 (input ++ rest) = ztake 4 (out ++ tag ++ str)) by now rewrite He.
          rewrite !ztake_app_l in X by lia. assumption. }
        assert (GL : p_getlen P (d_ctx P dr) (d_seq P dr) input = Some (be_dec (ztake 4 frame))).
        { rewrite <- (ztake_zdrop _ 4 input). rewrite Hpre, <- Hs.
          apply (ic_getlen _ _ _ _ _ HC ltac:(lia) (d_ctx P s) (d_ctx P dr) (d_seq P s) frame (zlen frame - aad) out ctx' (zdrop 4 input) HR Hbf ltac:(lia) Lm Hcr). }
        rewrite GL. replace (be_dec (ztake 4 frame)) with (zlen frame - 4) by lia.
        unfold PACKET_MAX_SIZE. replace ((zlen frame - 4 <? 5) || (262144 <? zlen frame - 4)) with false by lia.
        eapply poll_whole; eauto; try reflexivity; [lia|]. unfold step_in, in_step. cbn [r_dir]. auto.
  - destruct (flight_lengths _ _ _ _ _ _ F) as (Lo & L1 & _).
    replace (r_packlen P r =? 0) with false by lia. eapply poll_whole; eauto.
  - destruct (flight_lengths _ _ _ _ _ _ F) as (Lo & L1 & _).
    replace (r_packlen P r =? 0) with false by lia. eapply poll_rest; eauto.
Qed.


Lemma feed_ok : forall r c rest s s' cs, r_discard P r = 0 -> stand r (c ++ rest) s s' cs ->
  exists r', rx_feed P r c = inr r' /\ r_discard P r' = 0 /\ stand r' rest s s' cs.
Proof.
  intros r c rest s s' cs Hd St. unfold rx_feed. rewrite Hd. cbn [Z.eqb negb]. eexists. split; [reflexivity|]. split; [reflexivity|].
  destruct St; [eapply st_fresh|eapply st_whole|eapply st_rest]; eauto; cbn [r_input]; rewrite <- app_assoc; assumption.
Qed.

Definition contents (sent : list (Z * list Z)) : list (list Z) := map (fun '(ty, pl) => ty :: pl) sent.

Lemma receive_ok : forall sseq s' ops r later s sent, r_discard P r = 0 -> stand r (fed ops ++ later) s s' (contents sent) ->
  exists sent1 sent2 r' s1, sent = sent1 ++ sent2 /\ receive P i n sseq r ops = (numbered (d_seq P s) sent1, inr r') /\
    r_discard P r' = 0 /\ stand r' later s1 s' (contents sent2).
Proof.
  intros sseq s'. induction ops as [|[c|] ops IH]; intros r later s sent Hd St; cbn [fed] in St.
  - exists [], sent, r, s. cbn [receive numbered app]. auto.
  - rewrite <- app_assoc in St. destruct (feed_ok _ _ _ _ _ _ Hd St) as (r1 & E & Hd1 & St1). cbn [receive]. rewrite E. now apply IH.
  - pose proof (poll_ok sseq _ _ _ _ _ Hd St) as HP. cbn [receive]. destruct (rx_poll P i n sseq r) as [r1|r1 ty pl sq|e]; cbn [poll_post] in HP.
    + destruct HP as (Hd1 & St1 & _). now apply IH.
    + destruct HP as (Hd1 & -> & s1 & cs1 & Hcs & Hsq & St1).
      destruct sent as [|[ty' pl'] sent]; [discriminate|]. cbn [contents map] in Hcs. injection Hcs as -> -> <-.
      destruct (IH (rx_ready P r1) later s1 sent Hd1 St1) as (t1 & t2 & r' & s2 & -> & E & Hd2 & St2).
      exists ((ty, pl) :: t1), t2, r', s2. rewrite E. split; [reflexivity|]. split; [|auto].
      cbn [numbered]. rewrite Hsq. reflexivity.
    + contradiction.
Qed.

Lemma receive_app : forall sseq ops1 ops2 r, receive P i n sseq r (ops1 ++ ops2) =
  match receive P i n sseq r ops1 with
  | (ms, inl e) => (ms, inl e)
  | (ms, inr r') => let '(ms2, o) := receive P i n sseq r' ops2 in (ms ++ ms2, o)
  end.
Proof.
  intros sseq. induction ops1 as [|[c|] ops1 IH]; intros ops2 r; cbn [receive app].
  - destruct (receive P i n sseq r ops2). reflexivity.
  - destruct (rx_feed P r c); [reflexivity|]. apply IH.
  - destruct (rx_poll P i n sseq r) as [r1|r1 ty pl sq|e]; [apply IH| |reflexivity].
    rewrite IH. destruct (receive P i n sseq (rx_ready P r1) ops1) as [ms [e|r2]]; [reflexivity|].
    destruct (receive P i n sseq r2 ops2). reflexivity.
Qed.

Lemma numbered_app : forall a b sq, exists sq', numbered sq (a ++ b) = numbered sq a ++ numbered sq' b.
Proof.
  induction a as [|[ty pl] a IH]; intros b sq; cbn [numbered app]; [now exists sq|].
  destruct (IH b ((sq + 1) mod U32)) as [sq' ->]. now exists sq'.
Qed.

(** Enough polls after everything has arrived. *)
Lemma drain_ok : forall sseq s' k r s sent, r_discard P r = 0 -> stand r [] s s' (contents sent) -> (length sent <= k)%nat ->
  exists r', receive P i n sseq r (repeat Poll k) = (numbered (d_seq P s) sent, inr r') /\
    r_input P r' = [] /\ r_packlen P r' = 0 /\ r_discard P r' = 0 /\ step_in s' (r_dir P r').
Proof.
  assert (Hend : forall r s s', stand r [] s s' [] -> r_input P r = [] /\ r_packlen P r = 0 /\ step_in s' (r_dir P r)).
  { intros r s s' St. inversion St as [cs str Fl Hp Si He Hcs| |]; subst. rewrite app_nil_r in *. inversion Fl; subst. auto. }
  intros sseq s'. induction k as [|k IH]; intros r s sent Hd St Hl; cbn [repeat receive].
  - destruct sent; [|cbn in Hl; lia]. exists r. split; [reflexivity|]. destruct (Hend _ _ _ St) as (? & ? & ?). auto.
  - pose proof (poll_ok sseq _ _ _ _ _ Hd St) as HP. destruct (rx_poll P i n sseq r) as [r1|r1 ty pl sq|e]; cbn [poll_post] in HP.
    + destruct HP as (Hd1 & St1 & Hn). specialize (Hn eq_refl). destruct sent as [|[? ?] ?]; [|discriminate].
      apply IH; auto. cbn. lia.
    + destruct HP as (Hd1 & -> & s1 & cs1 & Hcs & Hsq & St1).
      destruct sent as [|[ty' pl'] sent]; [discriminate|]. cbn [contents map] in Hcs. injection Hcs as -> -> <-.
      destruct (IH (rx_ready P r1) s1 sent Hd1 St1) as (r' & E & X); [cbn [length] in Hl; lia|].
      exists r'. rewrite E. split; [|auto]. cbn [numbered]. rewrite Hsq. reflexivity.
    + contradiction.
Qed.

(** What [emits] puts on the wire. *)
Lemma emits_flights : forall sent t t' L,
  d_keys P (t_dir P t) = ok -> 0 <= t_extra P t < 256 -> (exists r0, Q (d_z P (t_dir P t)) r0) ->
  Forall (fun '(ty, pl) => 1 <= ty < 256 /\ is_bytes pl /\ zlen pl <= 134217000) sent ->
  emits P i n t (map (fun '(ty, pl) => packet ty pl) sent) = Some t' ->
  t_log P t' = t_log P t ++ L -> Forall (fun '(_, _, f) => zlen f <= 262148) L ->
  exists str, t_output P t' = t_output P t ++ str /\ flights (t_dir P t) (contents sent) str (t_dir P t').
Proof.
  assert (Lmono : forall pk t t', emits P i n t pk = Some t' -> d_keys P (t_dir P t) = ok -> exists L, t_log P t' = t_log P t ++ L).
  { induction pk as [|p pk IH]; intros t t' H Hk; cbn [emits] in H; [injection H as <-; exists []; now rewrite app_nil_r|].
    destruct (tx_emit P i n t p) as [t1 [e|]] eqn:E; [discriminate|].
    assert (X : t_log P t1 = t_log P t \/ exists x, t_log P t1 = t_log P t ++ [x]).
    { unfold tx_emit in E. destruct (compress_packet P (t_dir P t) p) as [[p1 d1]|]; [|discriminate].
      cbv zeta in E. destruct (pad_length _ _ _); [|discriminate]. destruct (p_crypt _ _ _ _ _ _ _) as [[o c]|]; [|discriminate].
      destruct (count_packet _ _ _ _ _). injection E as <- _. right. cbn [t_log]. eexists. reflexivity. }
    assert (Y : d_keys P (t_dir P t1) = ok).
    { unfold tx_emit in E. destruct (compress_packet P (t_dir P t) p) as [[p1 d1]|] eqn:Ec; [|discriminate].
      cbv zeta in E. destruct (pad_length _ _ _); [|discriminate]. destruct (p_crypt _ _ _ _ _ _ _) as [[o c]|]; [|discriminate].
      destruct (count_packet _ _ _ _ _) eqn:Ect. injection E as <- ->. cbn [t_dir]. apply count_facts in Ect as (-> & _). cbn [with_ctx d_keys].
      unfold compress_packet in Ec. destruct (d_comp P (t_dir P t)); [destruct (p_deflate _ _ _) as [[? ?]|]; [|discriminate]|];
        injection Ec as <- <-; cbn [with_z d_keys]; assumption. }
    destruct (IH _ _ H Y) as [L HL]. destruct X as [X|[x X]]; rewrite X in HL; [now exists L|]. exists (x :: L). rewrite HL, <- app_assoc. reflexivity. }
  induction sent as [|[ty pl] sent IH]; intros t t' L Hk He Hq Hs H HL Hf; cbn [map emits] in H.
  - injection H as <-. exists []. rewrite app_nil_r. split; [reflexivity|]. now constructor.
  - destruct (tx_emit P i n t (packet ty pl)) as [t1 [e|]] eqn:E; [discriminate|].
    inversion Hs as [|? ? Hx Hs']; subst. cbv beta iota in Hx. destruct Hx as (Hty & Hpb & Hpl).
    assert (Hd5 : zdrop 5 (packet ty pl) = ty :: pl) by (unfold packet; now apply (zdrop_app_exact Z 5 (repeat 0 5))).
    assert (Lp : zlen (packet ty pl) = 6 + zlen pl) by (unfold packet; rewrite zlen_app, zlen_cons, zlen_repeat; lia).
    assert (Hcb : is_bytes (ty :: pl)) by (constructor; [unfold is_byte; lia|assumption]).
    pose proof (zlen_nonneg _ pl) as Hpl0.
    assert (Hb12 : forall body z', body_for P (t_dir P t) (zdrop 5 (packet ty pl)) body z' -> is_bytes body /\ 1 <= zlen body <= 134217728 /\ exists r0, Q z' r0).
    { intros body z' Hb. rewrite Hd5 in Hb. unfold body_for in Hb. rewrite Hk in Hb. destruct Hq as [r0 Hq].
      assert (Hplain : body = ty :: pl /\ z' = d_z P (t_dir P t) -> is_bytes body /\ 1 <= zlen body <= 134217728 /\ exists r0, Q z' r0).
      { intros [-> ->]. split; [assumption|]. split; [rewrite zlen_cons; lia|]. now exists r0. }
      destruct ok as [k|]; [destruct (k_comp_on k)|]; auto.
      destruct (HZ _ _ _ _ _ Hq Hb Hcb) as (B1 & B2 & r' & _ & Q'). split; [assumption|]. split; [assumption|]. now exists r'. }
    apply emit_facts in E as [(_ & _ & Hn)|(body & z' & frame & out & ctx' & Eb & Ef & Efb & _ & Ecr & Eo & El & Ect & Ee)].
    { congruence. }
    2:{ rewrite Hk. exact HS. } 2:{ lia. } 2:{ assumption. } 2:{ intros body z' Hb. now apply (Hb12 _ _ Hb). }
    destruct (Hb12 _ _ Eb) as (Bb & _ & Bq). destruct (HB _ Hk) as (B1 & B2 & B3). rewrite B1, B2 in Ef. rewrite B2, B3 in Ecr.
    assert (Hk1 : d_keys P (t_dir P t1) = ok) by (apply count_facts in Ect as (-> & _); exact Hk).
    destruct (Lmono _ _ _ H Hk1) as [L1 HL1].
    assert (L = (d_keys P (t_dir P t), d_seq P (t_dir P t), frame) :: L1) as ->.
    { rewrite HL1, El, <- app_assoc in HL. apply app_inv_head in HL. now rewrite <- HL. }
    inversion Hf as [|? ? Hf1 Hf2]; subst.
    destruct (IH t1 t' L1) as (str & Ho & Hfl); auto.
    { lia. } { apply count_facts in Ect as (_ & _ & -> & _). exact Bq. }
    exists (out ++ tag_of (t_dir P t) out frame ++ str). split; [rewrite Ho, Eo, <- !app_assoc; reflexivity|].
    cbn [contents map]. eapply fl_cons; [|lia|exact Hfl]. rewrite Hd5 in Eb. constructor; auto.
    exists body, z', ctx'. splits; auto.
Qed.

End Deliver.

(** ** Integrity *)

Section Genuine.
Variables (i n : bool) (k : keys).
Hypothesis HS : keys_sane (Some k).
Hypothesis HL : 0 <= m_len (k_mac k) <= 64.
Hypothesis HP : aead k \/ m_enabled (k_mac k) = true.

Lemma mode_cases : forall d, d_keys P d = Some k ->
  (aead k /\ d_mac P d = None /\ d_aadlen P d = 4 /\ d_authlen P d = k_authlen k /\ d_maclen P d = 0) \/
  (etm k /\ d_mac P d = Some (k, k_mac k) /\ d_aadlen P d = 4 /\ d_authlen P d = 0 /\ d_maclen P d = m_len (k_mac k)) \/
  (eam k /\ d_mac P d = Some (k, k_mac k) /\ d_aadlen P d = 0 /\ d_authlen P d = 0 /\ d_maclen P d = m_len (k_mac k)).
Proof.
  intros d Hd. unfold d_maclen, d_aadlen, d_etm, d_mac, d_authlen. rewrite Hd. unfold aead, etm, eam in *.
  destruct (k_authlen k =? 0) eqn:E.
  - right. assert (k_authlen k = 0) by lia. destruct HP as [|Hm]; [contradiction|]. rewrite Hm. cbn [andb].
    destruct (m_etm (k_mac k)) eqn:Ee; [left|right]; splits; auto.
  - left. cbn [andb]. splits; auto; lia.
Qed.

Lemma deliver_facts : forall d input incoming packlen r' ty pl sq,
  d_keys P d = Some k -> deliver P i n d input incoming packlen = RxMsg P r' ty pl sq ->
  sq = d_seq P d /\ r_input P r' = input /\ r_discard P r' = 0 /\
  d_keys P (r_dir P r') = Some k /\ d_ctx P (r_dir P r') = d_ctx P d /\ d_seq P (r_dir P r') = u32 (d_seq P d + 1) /\
  exists body, body_of incoming body /\
    if k_comp_on k then p_inflate P (d_z P d) body = Some (ty :: pl, d_z P (r_dir P r'))
    else body = ty :: pl /\ d_z P (r_dir P r') = d_z P d.
Proof.
  intros d input incoming packlen r' ty pl sq Hk H. unfold deliver in H.
  destruct (count_packet P i n d (u32 (packlen + 4))) as [d2 [e|]] eqn:Ec; [discriminate|].
  apply count_facts in Ec as (C1 & C2 & C3 & C4 & C5).
  destruct (unpack P d2 incoming) as [e|[d3 [|ty' pl']]] eqn:Eu; [discriminate..|].
  destruct (ty' <? 1); [discriminate|]. injection H as <- -> -> <-. cbn [r_input r_discard r_dir].
  unfold unpack in Eu. destruct (nth 4 incoming 0 <? 4) eqn:E4; [discriminate|]. destruct (zlen incoming <? 5) eqn:E5; [discriminate|].
  destruct (zlen (zdrop 5 incoming) <? nth 4 incoming 0) eqn:E6; [discriminate|].
  set (pd := nth 4 incoming 0) in *. set (rest := zdrop 5 incoming) in *.
  assert (Hb : body_of incoming (ztake (zlen rest - pd) rest)).
  { exists (ztake 4 incoming), (zdrop (zlen rest - pd) rest). split; [apply zlen_ztake; lia|].
    rewrite zlen_zdrop by lia. replace (zlen rest - (zlen rest - pd)) with pd by lia. rewrite ztake_zdrop.
    destruct incoming as [|x0 [|x1 [|x2 [|x3 [|x4 tl]]]]]; try (rewrite ?zlen_cons, ?zlen_nil in E5; lia). reflexivity. }
  unfold d_comp in Eu. rewrite C1, Hk in Eu. destruct (k_comp_on k).
  - destruct (p_inflate P (d_z P d2) (ztake (zlen rest - pd) rest)) as [[b z']|] eqn:Ei; [|discriminate]. injection Eu as <- ->.
    cbn [with_z d_keys d_ctx d_z d_seq]. splits; try congruence. exists (ztake (zlen rest - pd) rest). split; [assumption|]. now rewrite <- C3.
  - injection Eu as <- Eb. splits; try congruence. exists (ztake (zlen rest - pd) rest). split; [assumption|]. split; [assumption|congruence].
Qed.

(** Inside or between packets: [ctx] and [taken] are the cipher context at the
    start of the packet and the bytes of it already removed from the input. *)
Definition midway (r : rx P) (ctx : CS P) (taken : list Z) : Prop :=
  d_keys P (r_dir P r) = Some k /\
  ((r_packlen P r = 0 /\ taken = [] /\ ctx = d_ctx P (r_dir P r)) \/
   (5 <= r_packlen P r <= 262144 /\ d_aadlen P (r_dir P r) = 4 /\ r_incoming P r = [] /\ taken = [] /\ ctx = d_ctx P (r_dir P r)) \/
   (5 <= r_packlen P r <= 262144 /\ d_aadlen P (r_dir P r) = 0 /\ zlen taken = k_block k /\
    exists seq1, p_crypt P ctx seq1 taken (k_block k) 0 0 = Some (r_incoming P r, d_ctx P (r_dir P r)))).

Definition got (r : rx P) (ctx : CS P) (taken : list Z) (r' : rx P) (ty : Z) (pl : list Z) (sq : Z) : Prop :=
  sq = d_seq P (r_dir P r) /\ r_discard P r' = 0 /\ d_keys P (r_dir P r') = Some k /\ d_seq P (r_dir P r') = u32 (sq + 1) /\
  exists wire plain body, taken ++ r_input P r = wire ++ r_input P r' /\
    verified P k ctx (d_ctx P (r_dir P r')) sq wire plain /\ body_of plain body /\
    if k_comp_on k then p_inflate P (d_z P (r_dir P r)) body = Some (ty :: pl, d_z P (r_dir P r'))
    else body = ty :: pl /\ d_z P (r_dir P r') = d_z P (r_dir P r).

Lemma discard_facts : forall r disc, 0 <= disc <= 262144 ->
  match start_discard P r disc with RxNone _ r' => r_discard P r' <> 0 | RxMsg _ _ _ _ _ => False | RxErr _ _ => True end.
Proof.
  intros r disc H. unfold start_discard. destruct (_ || _); [exact I|].
  rewrite (u32_small disc) by lia. destruct (disc <=? zlen (r_input P r)) eqn:E; [exact I|]. cbn [r_discard].
  pose proof (zlen_nonneg _ (r_input P r)). rewrite u32_small by lia. lia.
Qed.

Lemma mac_check_true : forall m sq data theirs, mac_check P k m sq data theirs = true -> ztake (m_len m) theirs = ztake (m_len m) (p_mac P k sq data).
Proof. intros m sq data theirs H. unfold mac_check, mac_compute in H. apply beqb_eq' in H. congruence. Qed.

Lemma body_got : forall r ctx taken, r_discard P r = 0 -> r_packlen P r <> 0 -> midway r ctx taken ->
  match rx_body P i n r with
  | RxErr _ _ => True
  | RxNone _ r' => r_discard P r' <> 0 \/ r' = r
  | RxMsg _ r' ty pl sq => got r ctx taken r' ty pl sq
  end.
Proof.
  intros r ctx taken Hd Hp (Hk & Hm).
  assert (Bl : d_block P (r_dir P r) = k_block k) by (unfold d_block; now rewrite Hk).
  assert (B816 : k_block k = 8 \/ k_block k = 16) by (unfold keys_sane in HS; tauto).
  assert (A16 : 0 <= k_authlen k <= 16) by (unfold keys_sane in HS; tauto).
  assert (Hrange : 5 <= r_packlen P r <= 262144) by (destruct Hm as [?|[?|?]]; lia).
  unfold rx_body. rewrite Bl.
  set (need := if d_aadlen P (r_dir P r) =? 0 then u32 (4 + r_packlen P r - k_block k) else r_packlen P r).
  destruct (need mod k_block k =? 0) eqn:Em; cbn [negb].
  2:{ pose proof (discard_facts r (PACKET_MAX_SIZE - k_block k) ltac:(unfold PACKET_MAX_SIZE; lia)) as D.
      destruct (start_discard P r (PACKET_MAX_SIZE - k_block k)); auto; contradiction. }
  assert (Hn0 : 0 <= need < 300000 /\ need mod k_block k = 0 /\ (d_aadlen P (r_dir P r) = 0 -> need = 4 + r_packlen P r - k_block k)).
  { unfold need in *. destruct (d_aadlen P (r_dir P r) =? 0) eqn:Ea; [|splits; lia].
    destruct (Z_lt_dec (4 + r_packlen P r) (k_block k)) as [Hlt|Hge].
    - exfalso. assert (U : u32 (4 + r_packlen P r - k_block k) = 4 + r_packlen P r - k_block k + U32).
      { unfold u32. symmetry. apply Z.mod_unique with (-1); unfold U32; lia. }
      rewrite U in Em. unfold U32 in Em. destruct B816 as [E|E]; rewrite E in *; lia.
    - rewrite u32_small in * by lia. splits; lia. }
  destruct Hn0 as (Hn1 & Hn2 & Hn3). clearbody need.
  destruct (mode_cases _ Hk) as [(M1 & M2 & M3 & M4 & M5)|[(M1 & M2 & M3 & M4 & M5)|(M1 & M2 & M3 & M4 & M5)]]; rewrite M2, M3, M4, M5.
  - (* AEAD *)
    rewrite (u32_small (4 + need)) by lia. rewrite (u32_small (4 + need + k_authlen k)) by lia. rewrite (u32_small (4 + need + k_authlen k + 0)) by lia.
    destruct (zlen (r_input P r) <? 4 + need + k_authlen k + 0) eqn:El; [now right|]. cbn [negb].
    destruct (p_crypt P (d_ctx P (r_dir P r)) (d_seq P (r_dir P r)) (ztake (4 + need + k_authlen k) (r_input P r)) need 4 (k_authlen k)) as [[out ctx']|] eqn:Ec; [|exact I].
    destruct Hm as [(?&_)|[(_ & _ & Hi & -> & ->)|(_ & Ha & _)]]; [lia| |lia].
    rewrite Hi. cbn [app].
    destruct (deliver P i n (with_ctx P (r_dir P r) ctx') (zdrop (4 + need + k_authlen k) (r_input P r)) out (r_packlen P r)) as [?|r' ty pl sq|?] eqn:Ed; [|clear Hp|exact I].
    { exfalso. unfold deliver in Ed. destruct (count_packet P i n _ _) as [? [?|]]; [discriminate|]. destruct (unpack P _ _) as [?|[? [|? ?]]]; try discriminate. destruct (_ <? _) in Ed; discriminate. }
    apply deliver_facts in Ed; [|exact Hk]. destruct Ed as (-> & D1 & D2 & D3 & D4 & D5 & body & D6 & D7).
    unfold got. splits; auto. cbn [with_ctx d_ctx d_z] in D4, D7.
    exists (ztake (4 + need + k_authlen k) (r_input P r)), out, body. rewrite D1, D4. cbn [app]. split; [now rewrite ztake_zdrop|].
    split; [|split; [exact D6|exact D7]]. left. split; [assumption|]. exists need. split; [|exact Ec]. apply zlen_ztake. lia.
  - (* EtM *)
    rewrite (u32_small (4 + need)) by lia. rewrite Z.add_0_r. rewrite (u32_small (4 + need)) by lia. rewrite (u32_small (4 + need + m_len (k_mac k))) by lia.
    destruct (zlen (r_input P r) <? 4 + need + m_len (k_mac k)) eqn:El; [now right|].
    destruct M1 as (A0 & A1 & A2). rewrite A2.
    destruct (mac_check P k (k_mac k) (d_seq P (r_dir P r)) (ztake (4 + need) (r_input P r)) (zdrop (4 + need) (r_input P r))) eqn:Emac; cbn [negb]; [|exact I].
    destruct (p_crypt P (d_ctx P (r_dir P r)) (d_seq P (r_dir P r)) (ztake (4 + need) (r_input P r)) need 4 0) as [[out ctx']|] eqn:Ec; [|exact I].
    destruct Hm as [(?&_)|[(_ & _ & Hi & -> & ->)|(_ & Ha & _)]]; [lia| |lia].
    rewrite Hi. cbn [app negb andb].
    destruct (deliver P i n (with_ctx P (r_dir P r) ctx') (zdrop (m_len (k_mac k)) (zdrop (4 + need) (r_input P r))) out (r_packlen P r)) as [?|r' ty pl sq|?] eqn:Ed; [|clear Hp|exact I].
    { exfalso. unfold deliver in Ed. destruct (count_packet P i n _ _) as [? [?|]]; [discriminate|]. destruct (unpack P _ _) as [?|[? [|? ?]]]; try discriminate. destruct (_ <? _) in Ed; discriminate. }
    apply deliver_facts in Ed; [|exact Hk]. destruct Ed as (-> & D1 & D2 & D3 & D4 & D5 & body & D6 & D7).
    unfold got. splits; auto. cbn [with_ctx d_ctx d_z] in D4, D7.
    exists (ztake (4 + need) (r_input P r) ++ ztake (m_len (k_mac k)) (zdrop (4 + need) (r_input P r))), out, body. rewrite D1, D4. cbn [app].
    split; [rewrite <- app_assoc; now rewrite !ztake_zdrop|].
    split; [|split; [exact D6|exact D7]]. right. left. split; [unfold etm; auto|].
    exists (ztake (4 + need) (r_input P r)), (ztake (m_len (k_mac k)) (zdrop (4 + need) (r_input P r))).
    split; [reflexivity|]. split; [apply zlen_ztake; rewrite zlen_zdrop by lia; lia|]. split; [now apply mac_check_true|].
    rewrite zlen_ztake by lia. replace (4 + need - 4) with need by lia. exact Ec.
  - (* encrypt and MAC *)
    rewrite Z.add_0_l. rewrite (u32_small need) by lia. rewrite Z.add_0_r. rewrite (u32_small need) by lia. rewrite (u32_small (need + m_len (k_mac k))) by lia.
    destruct (zlen (r_input P r) <? need + m_len (k_mac k)) eqn:El; [now right|].
    destruct M1 as (A0 & A1 & A2). rewrite A2. cbn [negb andb].
    destruct (p_crypt P (d_ctx P (r_dir P r)) (d_seq P (r_dir P r)) (ztake need (r_input P r)) need 0 0) as [[out ctx']|] eqn:Ec; [|exact I].
    destruct (mac_check P k (k_mac k) (d_seq P (r_dir P r)) (r_incoming P r ++ out) (zdrop need (r_input P r))) eqn:Emac; cbn [negb].
    2:{ destruct (PACKET_MAX_SIZE <? u32 (need + k_block k)) eqn:Eb; [exact I|]. rewrite u32_small in Eb by lia. unfold PACKET_MAX_SIZE in *.
        match goal with |- context [start_discard P ?rr ?dd] => pose proof (discard_facts rr dd ltac:(lia)) as D; destruct (start_discard P rr dd); auto; contradiction end. }
    destruct Hm as [(?&_)|[(_ & Ha & _)|(_ & _ & Lt & seq1 & Hc1)]]; [lia|lia|].
    destruct (deliver P i n (with_ctx P (r_dir P r) ctx') (zdrop (m_len (k_mac k)) (zdrop need (r_input P r))) (r_incoming P r ++ out) (r_packlen P r)) as [?|r' ty pl sq|?] eqn:Ed; [|clear Hp|exact I].
    { exfalso. unfold deliver in Ed. destruct (count_packet P i n _ _) as [? [?|]]; [discriminate|]. destruct (unpack P _ _) as [?|[? [|? ?]]]; try discriminate. destruct (_ <? _) in Ed; discriminate. }
    apply deliver_facts in Ed; [|exact Hk]. destruct Ed as (-> & D1 & D2 & D3 & D4 & D5 & body & D6 & D7).
    unfold got. splits; auto. cbn [with_ctx d_ctx d_z] in D4, D7.
    exists (taken ++ ztake need (r_input P r) ++ ztake (m_len (k_mac k)) (zdrop need (r_input P r))), (r_incoming P r ++ out), body. rewrite D1, D4.
    split; [rewrite <- !app_assoc; now rewrite !ztake_zdrop|].
    split; [|split; [exact D6|exact D7]]. right. right. split; [unfold eam; auto|].
    exists taken, (ztake need (r_input P r)), (ztake (m_len (k_mac k)) (zdrop need (r_input P r))), (d_ctx P (r_dir P r)), seq1, (r_incoming P r), out.
    split; [reflexivity|]. split; [apply zlen_ztake; rewrite zlen_zdrop by lia; lia|]. split; [exact Hc1|].
    split; [rewrite zlen_ztake by lia; exact Ec|]. split; [reflexivity|]. now apply mac_check_true.
Qed.


Definition same_place (r : rx P) (ctx : CS P) (taken : list Z) (r' : rx P) : Prop :=
  r_discard P r' = 0 /\ d_seq P (r_dir P r') = d_seq P (r_dir P r) /\ d_z P (r_dir P r') = d_z P (r_dir P r) /\
  exists taken', midway r' ctx taken' /\ taken ++ r_input P r = taken' ++ r_input P r'.

Lemma poll_got : forall sseq r ctx taken, r_discard P r = 0 -> midway r ctx taken ->
  match rx_poll P i n sseq r with
  | RxErr _ _ => True
  | RxNone _ r' => r_discard P r' <> 0 \/ same_place r ctx taken r'
  | RxMsg _ r' ty pl sq => got r ctx taken r' ty pl sq
  end.
Proof.
  intros sseq r ctx taken Hd Hm. pose proof Hm as Hm0. unfold rx_poll. rewrite Hd. cbn [Z.eqb negb].
  assert (Same : same_place r ctx taken r) by (unfold same_place; splits; auto; now exists taken).
  destruct (r_packlen P r =? 0) eqn:Ep.
  2:{ pose proof (body_got r ctx taken Hd ltac:(lia) Hm0) as B. destruct (rx_body P i n r); auto. destruct B as [? | ->]; auto. }
  destruct Hm as (Hk & Hm). destruct Hm as [(_ & -> & ->)|[(?&_)|(?&_)]]; [|lia|lia].
  assert (Bl : d_block P (r_dir P r) = k_block k) by (unfold d_block; now rewrite Hk).
  assert (B816 : k_block k = 8 \/ k_block k = 16) by (unfold keys_sane in HS; tauto).
  destruct (d_aadlen P (r_dir P r) =? 0) eqn:Ea; cbn [negb].
  - rewrite Bl. destruct (zlen (r_input P r) <? k_block k) eqn:El; [auto|].
    destruct (p_crypt P (d_ctx P (r_dir P r)) sseq (ztake (k_block k) (r_input P r)) (k_block k) 0 0) as [[first ctx']|] eqn:Ec; [|exact I].
    destruct ((be_dec (ztake 4 first) <? 5) || (PACKET_MAX_SIZE <? be_dec (ztake 4 first))) eqn:Er.
    { match goal with |- context [start_discard P ?rr ?dd] => pose proof (discard_facts rr dd ltac:(unfold PACKET_MAX_SIZE; lia)) as D; destruct (start_discard P rr dd); auto; contradiction end. }
    unfold PACKET_MAX_SIZE in Er.
    set (r1 := mkRx P (with_ctx P (r_dir P r) ctx') (zdrop (k_block k) (r_input P r)) first (be_dec (ztake 4 first)) 0).
    assert (M1 : midway r1 (d_ctx P (r_dir P r)) (ztake (k_block k) (r_input P r))).
    { split; [exact Hk|]. right. right. subst r1. cbn [r_packlen r_dir r_incoming with_ctx d_ctx]. split; [lia|]. split.
      - change (d_aadlen P (with_ctx P (r_dir P r) ctx')) with (d_aadlen P (r_dir P r)). lia.
      - split; [apply zlen_ztake; lia|]. now exists sseq. }
    assert (S1 : same_place r (d_ctx P (r_dir P r)) [] r1).
    { split; [reflexivity|]. split; [reflexivity|]. split; [reflexivity|]. exists (ztake (k_block k) (r_input P r)). split; [exact M1|].
      cbn [app]. symmetry. apply ztake_zdrop. }
    pose proof (body_got r1 _ _ eq_refl ltac:(cbn [r1 r_packlen]; lia) M1) as B. destruct (rx_body P i n r1) as [r'|r' ty pl sq|e]; auto.
    + destruct B as [? | ->]; auto.
    + unfold got in *. cbn [r1 r_dir r_input with_ctx d_seq d_z] in B. rewrite ztake_zdrop in B. exact B.
  - destruct (p_getlen P (d_ctx P (r_dir P r)) (d_seq P (r_dir P r)) (r_input P r)) as [m|]; [|auto].
    destruct ((m <? 5) || (PACKET_MAX_SIZE <? m)) eqn:Er; [exact I|]. unfold PACKET_MAX_SIZE in Er.
    set (r1 := mkRx P (r_dir P r) (r_input P r) [] m 0).
    assert (M1 : midway r1 (d_ctx P (r_dir P r)) []).
    { split; [exact Hk|]. right. left. cbn [r1 r_packlen r_dir r_incoming]. splits; auto; try lia. destruct (d_aadlen_cases (r_dir P r)); lia. }
    assert (S1 : same_place r (d_ctx P (r_dir P r)) [] r1).
    { split; [reflexivity|]. split; [reflexivity|]. split; [reflexivity|]. exists []. split; [exact M1|reflexivity]. }
    pose proof (body_got r1 _ _ eq_refl ltac:(cbn [r1 r_packlen]; lia) M1) as B. destruct (rx_body P i n r1) as [r'|r' ty pl sq|e]; auto.
    destruct B as [? | ->]; auto.
Qed.

Lemma discarding_silent : forall sseq ops r, r_discard P r <> 0 -> 0 <= r_discard P r < U32 -> fst (receive P i n sseq r ops) = [].
Proof.
  intros sseq. induction ops as [|[c|] ops IH]; intros r Hd Hr; cbn [receive]; [reflexivity| |].
  - unfold rx_feed. replace (r_discard P r =? 0) with false by lia. cbn [negb].
    destruct (r_discard P r <=? zlen c) eqn:E; [reflexivity|]. pose proof (zlen_nonneg _ c). unfold U32 in Hr.
    apply IH; cbn [r_discard]; rewrite u32_small by lia; unfold U32; lia.
  - unfold rx_poll. replace (r_discard P r =? 0) with false by lia. cbn [negb]. now apply IH.
Qed.

Lemma poll_discard_range : forall sseq r r', rx_poll P i n sseq r = RxNone P r' -> 0 <= r_discard P r < U32 -> 0 <= r_discard P r' < U32.
Proof.
  assert (SD : forall r d r', start_discard P r d = RxNone P r' -> 0 <= r_discard P r' < U32).
  { intros r d r' H. unfold start_discard in H. destruct (_ || _); [discriminate|]. destruct (_ <=? _); [discriminate|]. injection H as <-. cbn [r_discard].
    unfold u32. apply Z.mod_pos_bound. reflexivity. }
  assert (DL : forall d inp inc pk r', deliver P i n d inp inc pk = RxNone P r' -> False).
  { intros d inp inc pk r' H. unfold deliver in H. destruct (count_packet P i n _ _) as [? [?|]]; [discriminate|]. destruct (unpack P _ _) as [?|[? [|? ?]]]; try discriminate. destruct (_ <? _) in H; discriminate. }
  assert (RB : forall r r', rx_body P i n r = RxNone P r' -> 0 <= r_discard P r < U32 -> 0 <= r_discard P r' < U32).
  { intros r r' H Hr. unfold rx_body in H. cbv zeta in H.
    destruct (negb (_ mod _ =? 0)) in H; [now apply SD in H|]. destruct (zlen _ <? _) in H; [injection H as <-; assumption|].
    destruct (negb _) in H; [discriminate|]. destruct (p_crypt _ _ _ _ _ _ _) as [[? ?]|] in H; [|discriminate].
    destruct (d_mac P (r_dir P r)) as [[? ?]|]; [|now apply DL in H].
    destruct (negb _ && _) in H; [|now apply DL in H]. destruct (_ <? _) in H; [discriminate|]. now apply SD in H. }
  intros sseq r r' H Hr. unfold rx_poll in H. cbv zeta in H.
  destruct (negb (r_discard P r =? 0)); [injection H as <-; assumption|].
  destruct (r_packlen P r =? 0); [|now apply RB in H].
  destruct (negb (d_aadlen P (r_dir P r) =? 0)).
  - destruct (p_getlen _ _ _ _); [|injection H as <-; assumption]. destruct (_ || _) in H; [discriminate|]. apply RB in H; [assumption|]. cbn [r_discard]. unfold U32. lia.
  - destruct (_ <? _) in H; [injection H as <-; assumption|]. destruct (p_crypt _ _ _ _ _ _ _) as [[? ?]|] in H; [|discriminate].
    destruct (_ || _) in H; [now apply SD in H|]. apply RB in H; [assumption|]. cbn [r_discard]. unfold U32. lia.
Qed.

Lemma genuine_more : forall ctx z sq str ms more, genuine P k ctx z sq str ms -> genuine P k ctx z sq (str ++ more) ms.
Proof. intros ctx z sq str ms more H. induction H; [constructor|]. rewrite <- app_assoc. econstructor; eauto. Qed.

Lemma receive_genuine : forall sseq ops r ctx taken, r_discard P r = 0 -> midway r ctx taken ->
  genuine P k ctx (d_z P (r_dir P r)) (d_seq P (r_dir P r)) (taken ++ r_input P r ++ fed ops) (fst (receive P i n sseq r ops)).
Proof.
  intros sseq. induction ops as [|[c|] ops IH]; intros r ctx taken Hd Hm; cbn [receive fed].
  - constructor.
  - unfold rx_feed. rewrite Hd. cbn [Z.eqb negb]. rewrite (app_assoc (r_input P r)).
    apply (IH (mkRx P (r_dir P r) (r_input P r ++ c) (r_incoming P r) (r_packlen P r) 0) ctx taken eq_refl). exact Hm.
  - pose proof (poll_got sseq r ctx taken Hd Hm) as PG. pose proof (poll_discard_range sseq r) as PR.
    destruct (rx_poll P i n sseq r) as [r'|r' ty pl sq|e].
    + destruct PG as [PG|(S1 & S2 & S3 & taken' & S4 & S5)].
      * rewrite discarding_silent; [constructor|assumption|]. apply (PR r' eq_refl). rewrite Hd. unfold U32. lia.
      * rewrite <- S2, <- S3. rewrite app_assoc, S5, <- app_assoc. now apply IH.
    + destruct PG as (-> & G1 & G2 & G3 & wire & plain & body & G4 & G5 & G6 & G7).
      specialize (IH (rx_ready P r') (d_ctx P (r_dir P r')) []).
      destruct (receive P i n sseq (rx_ready P r') ops) as [ms o] eqn:Er. cbn [fst] in *.
      rewrite app_assoc, G4, <- app_assoc.
      eapply genuine_msg; [exact G5|exact G6|exact G7|]. rewrite <- G3.
      apply IH; [exact G1|]. split; [exact G2|]. left. auto.
    + constructor.
Qed.

End Genuine.
End P.
