(** Lemmas about the key-exchange model. *)
From Coq Require Import String.
From Verif Require Import Base Text Dec SshbufModel SshbufSpec MatchModel MatchSpec MatchProof MatchProps KexNamesModel KexNamesSpec KexNamesProof KexModel KexSpec.

Lemma get_cstrs_enc : forall p rest, Forall (fun l => zlen l <= 134217724 /\ ~ In 0 l) p ->
  get_cstrs (length p) (concat (map enc_string p) ++ rest) = Some (p, rest).
Proof.
  induction p as [|v p IH]; intros rest H; [reflexivity|]. inversion H as [|? ? [H1 H2] H3]; subst.
  cbn [length get_cstrs map concat]. rewrite <- app_assoc, get_cstr_enc by assumption. now rewrite IH.
Qed.
Lemma get_strs_enc : forall p rest, Forall (fun l => zlen l <= 134217724 /\ ~ In 0 l) p ->
  get_strs (length p) (concat (map enc_string p) ++ rest) = Some rest.
Proof.
  induction p as [|v p IH]; intros rest H; [reflexivity|]. inversion H as [|? ? [H1 H2] H3]; subst.
  cbn [length get_strs map concat]. rewrite <- app_assoc, get_str_enc by assumption. now rewrite IH.
Qed.

Lemma choose_name : forall c s n, match_list c s = Some n <-> chosen c s n.
Proof. intros c s n. apply (C15_choice c s). Qed.

(** What a successful direction consists of. *)
Lemma choose_dir_ok : forall T cp sp ctos d, choose_dir T cp sp ctos = ROk d <->
  let i n := if ctos then n else S n in
  match_list (prop cp (i 2%nat)) (prop sp (i 2%nat)) = Some (d_enc d) /\ t_cipher T (d_enc d) = Some (d_info d) /\
  (if ci_auth (d_info d) =? 0
   then exists n, d_mac d = Some n /\ match_list (prop cp (i 4%nat)) (prop sp (i 4%nat)) = Some n /\ t_mac T n = Some (d_mackey d)
   else d_mac d = None /\ d_mackey d = 0) /\
  match_list (prop cp (i 6%nat)) (prop sp (i 6%nat)) = Some (d_comp d) /\
  ((t_zlib T && beqb (d_comp d) (bs "zlib@openssh.com")) || beqb (d_comp d) (bs "none") = true).
Proof.
  intros T cp sp ctos d. unfold choose_dir, choose_enc, choose_mac, choose_comp, PROPOSAL_ENC_ALGS_CTOS, PROPOSAL_ENC_ALGS_STOC, PROPOSAL_MAC_ALGS_CTOS, PROPOSAL_MAC_ALGS_STOC, PROPOSAL_COMP_ALGS_CTOS, PROPOSAL_COMP_ALGS_STOC.
  cbv zeta. set (i2 := if ctos then 2%nat else 3%nat). set (i4 := if ctos then 4%nat else 5%nat). set (i6 := if ctos then 6%nat else 7%nat).
  destruct d as [en ci mn mk cn]. cbn [d_enc d_info d_mac d_mackey d_comp].
  destruct (match_list (prop cp i2) (prop sp i2)) as [e|]; [|split; [discriminate|intros (H & _); discriminate]].
  destruct (t_cipher T e) as [c|] eqn:Ec.
  2:{ split; [discriminate|]. intros (H & H2 & _). injection H as ->. congruence. }
  destruct (ci_auth c =? 0) eqn:Ea.
  - destruct (match_list (prop cp i4) (prop sp i4)) as [m|].
    2:{ split; [discriminate|]. intros (H & H2 & H3 & _). injection H as ->. rewrite Ec in H2. injection H2 as ->. rewrite Ea in H3. destruct H3 as (? & _ & H3 & _). discriminate. }
    destruct (t_mac T m) as [k|] eqn:Em.
    2:{ split; [discriminate|]. intros (H & H2 & H3 & _). injection H as ->. rewrite Ec in H2. injection H2 as ->. rewrite Ea in H3. destruct H3 as (? & _ & H3 & H4). injection H3 as <-. congruence. }
    destruct (match_list (prop cp i6) (prop sp i6)) as [z|].
    2:{ split; [discriminate|]. intros (_ & _ & _ & H & _). discriminate. }
    destruct (_ || _) eqn:Eo.
    + split.
      * intros H. injection H as <- <- <- <- <-. rewrite Ea. splits; eauto.
      * intros (H & H2 & H3 & H4 & _). injection H as ->. rewrite Ec in H2. injection H2 as ->. rewrite Ea in H3. destruct H3 as (? & -> & H3 & H5). injection H3 as <-. injection H4 as ->. rewrite Em in H5. injection H5 as ->. reflexivity.
    + split; [discriminate|]. intros (_ & _ & _ & H & H5). injection H as ->. rewrite Eo in H5. discriminate.
  - destruct (match_list (prop cp i6) (prop sp i6)) as [z|].
    2:{ split; [discriminate|]. intros (_ & _ & _ & H & _). discriminate. }
    destruct (_ || _) eqn:Eo.
    + split.
      * intros H. injection H as <- <- <- <- <-. rewrite Ea. splits; eauto.
      * intros (H & H2 & H3 & H4 & _). injection H as ->. rewrite Ec in H2. injection H2 as ->. rewrite Ea in H3. destruct H3 as (-> & ->). injection H4 as ->. reflexivity.
    + split; [discriminate|]. intros (_ & _ & _ & H & H5). injection H as ->. rewrite Eo in H5. discriminate.
Qed.

(** What a successful negotiation consists of. *)
Lemma conf_ok : forall T f seq my_raw peer_raw x, kex_choose_conf T f seq my_raw peer_raw = KOk x <->
  exists my fm peer fp, kex_buf2prop my_raw = Some (my, fm) /\ kex_buf2prop peer_raw = Some (peer, fp) /\
  let cp := if f_server f then peer else my in let sp := if f_server f then my else peer in
  (f_initial f && f_strict (signals f peer) = true -> seq = 0) /\
  match_list (prop cp 0) (prop sp 0) = Some (c_kex x) /\ t_kex T (c_kex x) = true /\
  match_list (prop cp 1) (prop sp 1) = Some (c_hostkey x) /\ t_hostkey T (c_hostkey x) = true /\
  choose_dir T cp sp (f_server f) = ROk (c_in x) /\ choose_dir T cp sp (negb (f_server f)) = ROk (c_out x) /\
  c_need x = Z.max (Z.max 0 (dir_need (c_in x))) (dir_need (c_out x)) /\
  c_dh_need x = Z.max (Z.max 0 (dir_dh_need (c_in x))) (dir_dh_need (c_out x)) /\
  c_skip x = negb (fp =? 0) && negb (proposals_match my peer) /\ c_flags x = signals f peer.
Proof.
  intros T f seq mr pr x. unfold kex_choose_conf.
  destruct (kex_buf2prop mr) as [[my fm]|]; [|split; [discriminate|intros (? & ? & ? & ? & H & _); discriminate]].
  destruct (kex_buf2prop pr) as [[peer fp]|]; [|split; [discriminate|intros (? & ? & ? & ? & _ & H & _); discriminate]].
  cbv zeta. set (cp := if f_server f then peer else my). set (sp := if f_server f then my else peer).
  assert (R : forall P : list (list Z) -> Z -> list (list Z) -> Z -> Prop,
     (exists my0 fm0 peer0 fp0, Some (my, fm) = Some (my0, fm0) /\ Some (peer, fp) = Some (peer0, fp0) /\ P my0 fm0 peer0 fp0) <-> P my fm peer fp).
  { intros P. split; [intros (? & ? & ? & ? & A & B & H)|intros H; exists my, fm, peer, fp; auto]. injection A as <- <-. injection B as <- <-. exact H. }
  rewrite R. clear R. fold cp sp.
  destruct (f_initial f && f_strict (signals f peer)) eqn:Es; cbn [andb].
  - destruct (seq =? 0) eqn:E0; cbn [negb].
    2:{ split; [discriminate|]. intros (H & _). specialize (H eq_refl). lia. }
    unfold choose_kex, choose_hostkeyalg, PROPOSAL_KEX_ALGS, PROPOSAL_SERVER_HOST_KEY_ALGS.
    destruct (match_list (prop cp 0) (prop sp 0)) as [k|]; [|split; [discriminate|intros (_ & H & _); discriminate]].
    destruct (t_kex T k) eqn:Ek; [|split; [discriminate|intros (_ & H & H1 & _); injection H as ->; congruence]].
    destruct (match_list (prop cp 1) (prop sp 1)) as [h|]; [|split; [discriminate|intros (_ & _ & _ & H & _); discriminate]].
    destruct (t_hostkey T h) eqn:Eh; [|split; [discriminate|intros (_ & _ & _ & H & H1 & _); injection H as ->; congruence]].
    destruct (choose_dir T cp sp (f_server f)) as [di|]; [|split; [discriminate|intros (_ & _ & _ & _ & _ & H & _); discriminate]].
    destruct (choose_dir T cp sp (negb (f_server f))) as [dout|]; [|split; [discriminate|intros (_ & _ & _ & _ & _ & _ & H & _); discriminate]].
    split.
    + intros H. injection H as <-. cbn [c_kex c_hostkey c_in c_out c_need c_dh_need c_skip c_flags]. splits; auto. lia.
    + intros (_ & A & _ & B & _ & C & D & E & F & G & H). destruct x as [x1 x2 x3 x4 x5 x6 x7 x8]. cbn [c_kex c_hostkey c_in c_out c_need c_dh_need c_skip c_flags] in *.
      injection A as ->. injection B as ->. injection C as ->. injection D as ->. subst. reflexivity.
  - unfold choose_kex, choose_hostkeyalg, PROPOSAL_KEX_ALGS, PROPOSAL_SERVER_HOST_KEY_ALGS.
    destruct (match_list (prop cp 0) (prop sp 0)) as [k|]; [|split; [discriminate|intros (_ & H & _); discriminate]].
    destruct (t_kex T k) eqn:Ek; [|split; [discriminate|intros (_ & H & H1 & _); injection H as ->; congruence]].
    destruct (match_list (prop cp 1) (prop sp 1)) as [h|]; [|split; [discriminate|intros (_ & _ & _ & H & _); discriminate]].
    destruct (t_hostkey T h) eqn:Eh; [|split; [discriminate|intros (_ & _ & _ & H & H1 & _); injection H as ->; congruence]].
    destruct (choose_dir T cp sp (f_server f)) as [di|]; [|split; [discriminate|intros (_ & _ & _ & _ & _ & H & _); discriminate]].
    destruct (choose_dir T cp sp (negb (f_server f))) as [dout|]; [|split; [discriminate|intros (_ & _ & _ & _ & _ & _ & H & _); discriminate]].
    split.
    + intros H. injection H as <-. cbn [c_kex c_hostkey c_in c_out c_need c_dh_need c_skip c_flags]. splits; auto. discriminate.
    + intros (_ & A & _ & B & _ & C & D & E & F & G & H). destruct x as [x1 x2 x3 x4 x5 x6 x7 x8]. cbn [c_kex c_hostkey c_in c_out c_need c_dh_need c_skip c_flags] in *.
      injection A as ->. injection B as ->. injection C as ->. injection D as ->. subst. reflexivity.
Qed.

(** ** Derivation *)
Section D.
Variable hash : list Z -> list Z.
Variable mdsz : Z.
Hypothesis Hlen : forall x, zlen (hash x) = mdsz.
Hypothesis Hpos : 0 < mdsz.

Lemma stream_len : forall K H sid l n, zlen (stream hash K H sid l n) = Z.of_nat n * mdsz.
Proof. induction n as [|n IH]; [reflexivity|]. cbn [stream]. rewrite zlen_app, IH, Hlen. lia. Qed.
Lemma stream_prefix : forall K H sid l n m, (n <= m)%nat -> exists t, stream hash K H sid l m = stream hash K H sid l n ++ t.
Proof.
  intros K H sid l n m Hm. induction Hm as [|m Hm (t & IH)]; [exists []; now rewrite app_nil_r|].
  cbn [stream]. set (h := hash _). rewrite IH. exists (t ++ h). now rewrite app_assoc.
Qed.
Lemma write_tail : forall a n v, zlen v <= Z.of_nat n ->
  write_at (a ++ repeat 0 n) (zlen a) v = Some (a ++ v ++ repeat 0 (n - Z.to_nat (zlen v))).
Proof.
  intros a n v Hv. unfold write_at. rewrite zlen_app, zlen_repeat. pose proof (zlen_nonneg Z v). pose proof (zlen_nonneg Z a).
  replace (zlen a + Z.of_nat n <? zlen a + zlen v) with false by lia. do 2 f_equal; [now apply ztake_app_exact|]. f_equal.
  rewrite zdrop_app_r by lia. replace (zlen a + zlen v - zlen a) with (zlen v) by lia. unfold zdrop.
  assert (G : forall k n, (k <= n)%nat -> skipn k (repeat 0 n) = repeat 0 (n - k)).
  { induction k as [|k IH]; intros m Hm; [now rewrite Nat.sub_0_r|]. destruct m; [lia|]. cbn. apply IH. lia. }
  apply G. lia.
Qed.

Lemma loop_ok : forall K H sid l N m fuel n need, (1 <= n)%nat -> (n + m = N)%nat -> (m <= fuel)%nat ->
  (Z.of_nat N - 1) * mdsz < need <= Z.of_nat N * mdsz -> Z.of_nat N * mdsz < 4294967296 ->
  derive_loop hash mdsz fuel K H (stream hash K H sid l n ++ repeat 0 (Z.to_nat (Z.of_nat m * mdsz))) (Z.of_nat n * mdsz) need
  = DOk (stream hash K H sid l N).
Proof.
  intros K H sid l N. induction m as [|m IH]; intros fuel n need Hn Hs Hf Hr Hb.
  - replace N with n in * by lia. replace (Z.to_nat (Z.of_nat 0 * mdsz)) with 0%nat by lia. cbn [repeat]. rewrite app_nil_r.
    destruct fuel; cbn [derive_loop]; replace (Z.of_nat n * mdsz <? need) with false by lia; reflexivity.
  - destruct fuel as [|fuel]; [lia|]. cbn [derive_loop].
    assert (Z.of_nat n * mdsz <= (Z.of_nat N - 1) * mdsz) by (apply Z.mul_le_mono_nonneg_r; lia).
    replace (Z.of_nat n * mdsz <? need) with true by lia.
    set (sn := stream hash K H sid l n). assert (Ls : zlen sn = Z.of_nat n * mdsz) by apply stream_len. rewrite <- Ls.
    rewrite ztake_app_exact by reflexivity. rewrite write_tail by (rewrite Hlen; nia). rewrite Hlen.
    assert (E : (sn ++ hash (K ++ H ++ sn)) = stream hash K H sid l (S n)) by (cbn [stream]; destruct n; [lia|reflexivity]).
    rewrite app_assoc, E. rewrite Ls.
    replace (u32 (Z.of_nat n * mdsz + mdsz)) with (Z.of_nat (S n) * mdsz).
    2:{ rewrite u32_id; [lia|]. unfold U32. assert (Z.of_nat (S n) * mdsz <= Z.of_nat N * mdsz) by (apply Z.mul_le_mono_nonneg_r; lia). lia. }
    replace (Z.to_nat (Z.of_nat (S m) * mdsz) - Z.to_nat mdsz)%nat with (Z.to_nat (Z.of_nat m * mdsz)) by lia.
    apply IH; lia.
Qed.

Lemma derive_ok : forall K H sid l need, 1 <= need -> need + mdsz <= 4294967296 ->
  derive_key hash mdsz K H sid l need = DOk (stream hash K H sid l (Z.to_nat ((need + mdsz - 1) / mdsz))).
Proof.
  intros K H sid l need Hn Hb. unfold derive_key. replace (mdsz =? 0) with false by lia.
  unfold ROUNDUP. replace (need + (mdsz - 1)) with (need + mdsz - 1) by lia. set (N := (need + mdsz - 1) / mdsz).
  assert (HN : (N - 1) * mdsz < need <= N * mdsz).
  { pose proof (Z.div_mod (need + mdsz - 1) mdsz ltac:(lia)). pose proof (Z.mod_pos_bound (need + mdsz - 1) mdsz Hpos). fold N in H0. nia. }
  assert (1 <= N) by nia.
  pose proof (write_tail [] (Z.to_nat (N * mdsz)) (hash (K ++ H ++ [l] ++ sid))) as W. cbn [app] in W. change (zlen (@nil Z)) with 0 in W.
  cbn [app]. rewrite W by (rewrite Hlen; nia). rewrite Hlen. clear W.
  replace (hash (K ++ H ++ l :: sid)) with (stream hash K H sid l 1) by reflexivity.
  replace (u32 mdsz) with (Z.of_nat 1 * mdsz) by (rewrite u32_id; unfold U32; lia).
  replace (Z.to_nat (N * mdsz) - Z.to_nat mdsz)%nat with (Z.to_nat (Z.of_nat (Z.to_nat N - 1) * mdsz)) by (rewrite Nat2Z.inj_sub by lia; nia).
  apply loop_ok; rewrite ?Z2Nat.id by lia; try lia; nia.
Qed.
End D.
