(** Proofs for C79, 2: public values, the methods, the two sides. *)
From Coq Require Import String Sorting.Sorted.
From Coq Require Import Zpow_facts.
From Verif Require Import Base Text SshbufModel SshbufSpec SshbufProof MiscNumModel WireSpec WireProof AuthOptModel AuthOptProof Dec KeyModel KeySpec KexModel SigProof2 SigProof3 KeyProof KeyProof2 KeyProof3 PrivProof3 PrivProof4 ExchModel ExchSpec ExchProof.
Local Open Scope Z_scope.

(** ** Public values *)
Fixpoint ones (k : nat) (n z : Z) : Prop :=
  match k with O => True | S k => exists i, 0 <= i <= n /\ Z.testbit z i = true /\ ones k (i - 1) z end.
Lemma ones_mono : forall k n n' z, n <= n' -> ones k n z -> ones k n' z.
Proof. destruct k as [|k]; intros n n' z L H; [exact I|]. destruct H as (i & B & T & H). exists i. splits; auto; lia. Qed.
Lemma bits_set_nonneg : forall n z, 0 <= bits_set n z.
Proof. induction n as [|n IH]; intros z; cbn [bits_set]; destruct (Z.testbit z _); try lia; specialize (IH z); lia. Qed.
Lemma bits_set_iff : forall n k z, Z.of_nat k <= bits_set n z <-> ones k (Z.of_nat n) z.
Proof.
  induction n as [|n IH]; intros k z.
  - cbn [bits_set]. destruct k as [|[|k]].
    + cbn [ones]. split; [trivial|]. intros _. destruct (Z.testbit z _); lia.
    + cbn [ones]. change (Z.of_nat 0) with 0. split.
      * destruct (Z.testbit z 0) eqn:T; [|lia]. intros _. exists 0. splits; auto; lia.
      * intros (i & B & T & _). replace i with 0 in T by lia. rewrite T. lia.
    + cbn [ones]. change (Z.of_nat 0) with 0. split; [destruct (Z.testbit z 0); lia|]. intros (i & B & _ & j & B' & _). lia.
  - cbn [bits_set]. destruct k as [|k].
    + cbn [ones]. split; [trivial|]. intros _. pose proof (bits_set_nonneg n z). destruct (Z.testbit z _); lia.
    + split.
      * intros H. destruct (Z.testbit z (Z.of_nat (S n))) eqn:T.
        -- cbn [ones]. exists (Z.of_nat (S n)). splits; auto; try lia. replace (Z.of_nat (S n) - 1) with (Z.of_nat n) by lia. apply IH. lia.
        -- apply ones_mono with (Z.of_nat n); [lia|]. apply IH. lia.
      * intros (i & B & T & H). destruct (Z.eq_dec i (Z.of_nat (S n))) as [->|N].
        -- rewrite T. replace (Z.of_nat (S n) - 1) with (Z.of_nat n) in H by lia. apply IH in H. lia.
        -- assert (G : ones (S k) (Z.of_nat n) z) by (exists i; splits; auto; lia). apply IH in G. destruct (Z.testbit z (Z.of_nat (S n))); lia.
Qed.
Lemma bit_bound : forall z i, 0 <= z -> 0 <= i -> Z.testbit z i = true -> i <= zbits z.
Proof.
  intros z i Hz Hi T. destruct (Z.le_gt_cases i (zbits z)) as [L|L]; [assumption|]. exfalso. unfold zbits in L. destruct (z =? 0) eqn:E; [replace z with 0 in T by lia; rewrite Z.bits_0 in T; discriminate|].
  rewrite Z.bits_above_log2 in T by lia. discriminate.
Qed.
Lemma valid_iff : forall p v, dh_pub_is_valid p v = true <-> sound_value p v.
Proof.
  intros p v. unfold dh_pub_is_valid, sound_value. destruct (v <? 0) eqn:E0; [split; [discriminate|lia]|]. destruct (v <=? 1) eqn:E1; [split; [discriminate|lia]|]. destruct (p - 1 <=? v) eqn:E2; [split; [discriminate|lia]|].
  rewrite negb_true_iff, Z.ltb_ge. change 4 with (Z.of_nat 4). rewrite bits_set_iff. pose proof (zbits_nonneg v). rewrite Z2Nat.id by assumption. unfold four_ones. split.
  - intros (d & Bd & Td & c & Bc & Tc & b & Bb & Tb & a & Ba & Ta & _). split; [lia|]. exists a, b, c, d. splits; auto; lia.
  - intros (_ & a & b & c & d & Ha & Hb & Ta & Tb & Tc & Td). pose proof (bit_bound v d ltac:(lia) ltac:(lia) Td).
    exists d. splits; auto; try lia. exists c. splits; auto; try lia. exists b. splits; auto; try lia. exists a. splits; auto; try lia. exact I.
Qed.
Lemma gen_key_iff : forall p g need x pub, dh_gen_key p g need x = Some pub -> pub = g ^ x mod p /\ sound_value p pub /\ 2 * need <= zbits p.
Proof.
  intros p g need x pub H. unfold dh_gen_key in H. cbv zeta in H. destruct ((need <? 0) || (zbits p <=? 0) || (INT_MAX / 2 <? need) || (zbits p <? 2 * need)) eqn:E; [discriminate|].
  apply orb_false_elim in E as (_ & E). destruct (dh_pub_is_valid p (g ^ x mod p)) eqn:V; [|discriminate]. apply valid_iff in V. assert (pub = g ^ x mod p) as -> by congruence. splits; auto; lia.
Qed.
Lemma compute_iff : forall p x v K, dh_compute_key p x v = Some K <-> sound_value p v /\ v ^ x mod p < mp_top /\ K = mp (v ^ x mod p).
Proof.
  intros p x v K. unfold dh_compute_key. destruct (dh_pub_is_valid p v) eqn:V.
  - pose proof V as V'. apply valid_iff in V'. assert (R : 0 <= v ^ x mod p) by (destruct V' as (L & _); apply Z.mod_pos_bound; lia). rewrite put_bn_iff by assumption. split.
    + intros (b & Hb & -> & _ & L). injection Hb as <-. auto.
    + intros (_ & L & ->). exists []. splits; auto. cbn [app]. unfold mp. rewrite zlen_enc_string. unfold mpint_body. pose proof (to_bin_mag _ R) as M. rewrite strip0_id by (intros r Er; rewrite Er in M; now apply M).
      apply to_bin_small in L; [|assumption]. destruct (msb _); rewrite ?zlen_cons; lia.
  - split; [discriminate|]. intros (S & _). apply valid_iff in S. congruence.
Qed.
Lemma dh_agree : forall p g a b, 0 <= a -> 0 <= b -> 0 < p -> (g ^ a mod p) ^ b mod p = (g ^ b mod p) ^ a mod p.
Proof. intros p g a b A B P. rewrite <- !Zpower_mod by lia. rewrite <- !Z.pow_mul_r by assumption. now rewrite Z.mul_comm. Qed.

Section Exch.
Variable point_ok : curve -> list Z -> bool.
Variable ver : kpub -> list Z -> list Z -> bool.
Variable hash : list Z -> list Z.
Variable mdsz : Z.
Variable sm : list Z -> list Z -> list Z.
Variable ec_pub : curve -> list Z -> list Z.
Variable ec_mul : curve -> list Z -> list Z -> list Z.
Variable kem_pk : kem -> list Z -> list Z.
Variable kem_ok : list Z -> bool.
Variable kem_enc : kem -> list Z -> list Z -> list Z * list Z.
Variable kem_dec : kem -> list Z -> list Z -> option (list Z).
Variable verify : key -> list Z -> list Z -> list Z -> bool.
Variable sgn : list Z -> list Z -> option (list Z).
Variable trust : key -> bool.
Notation keypair' := (keypair sm ec_pub kem_pk).
Notation kdec' := (kdec point_ok hash sm ec_mul kem_dec).
Notation kenc' := (kenc point_ok hash sm ec_pub ec_mul kem_pk kem_ok kem_enc kem_dec).
Notation gen_reply' := (gen_reply point_ok ver hash mdsz sm ec_mul kem_dec verify trust).
Notation gen_init' := (gen_init point_ok hash mdsz sm ec_pub ec_mul kem_pk kem_ok kem_enc kem_dec sgn).
Notation gex_reply' := (gex_reply point_ok ver hash mdsz verify trust).
Notation gex_init' := (gex_init hash mdsz sgn).

(** ** The two sides *)
Definition opened (x : kctx) (client : bool) (hk : list Z) : opening :=
  if client then opening_of (x_cv x) (x_sv x) (x_my x) (x_peer x) hk else opening_of (x_cv x) (x_sv x) (x_peer x) (x_my x) hk.
Lemma gen_reply_iff : forall x o cp pkt u, is_bytes pkt -> (gen_reply' x o cp pkt = Some u <->
  exists hk k sp sig K, pkt = enc_string hk ++ enc_string sp ++ enc_string sig /\ zlen hk <= 134217724 /\ zlen sp <= 134217724 /\ zlen sig <= 134217724 /\
    from_blob point_ok ver hk = Some k /\ verify_host_key trust x k = true /\ kdec' (x_method x) o sp = Some K /\
    zlen (hashed_gen (opened x true hk) cp sp K) <= 134217728 /\ verify k sig (hash (hashed_gen (opened x true hk) cp sp K)) (x_alg x) = true /\
    finish hash mdsz false x k (hash (hashed_gen (opened x true hk) cp sp K)) K = Some u).
Proof.
  intros x o cp pkt u Hb. unfold gen_reply. split.
  - intros H. destruct (get_str pkt) as [[hk r]|] eqn:E1; [|discriminate]. destruct (from_blob point_ok ver hk) as [k|] eqn:E2; [|discriminate]. destruct (verify_host_key trust x k) eqn:E3; [|discriminate]. cbn [negb] in H.
    apply get_str_iff in E1 as (-> & L1); [|assumption]. apply bytes_app in Hb as (_ & Hb).
    destruct (get_str r) as [[sp r']|] eqn:E4; [|discriminate]. apply get_str_iff in E4 as (-> & L2); [|assumption]. apply bytes_app in Hb as (_ & Hb).
    destruct (get_str r') as [[sig r]|] eqn:E5; [|discriminate]. apply get_str_iff in E5 as (-> & L3); [|assumption].
    destruct r as [|c r]; [|discriminate]. cbn [is_nil negb] in H. destruct (kdec' (x_method x) o sp) as [K|] eqn:E6; [|discriminate].
    destruct (gen_hash_in _ _ _ _ hk cp sp K) as [b|] eqn:E7; [|discriminate]. apply gen_hash_iff in E7 as (-> & L4). destruct (verify k sig _ _) eqn:E8; [|discriminate]. cbn [negb] in H.
    exists hk, k, sp, sig, K. rewrite app_nil_r. splits; auto.
  - intros (hk & k & sp & sig & K & -> & L1 & L2 & L3 & F & V & D & L4 & W & U). rewrite get_str_enc by assumption. rewrite F, V. cbn [negb]. rewrite get_str_enc by assumption.
    replace (enc_string sig) with (enc_string sig ++ []) by apply app_nil_r. rewrite get_str_enc by assumption. cbn [is_nil negb]. rewrite D.
    rewrite (proj2 (gen_hash_iff (x_cv x) (x_sv x) (x_my x) (x_peer x) hk cp sp K (hashed_gen (opened x true hk) cp sp K)) (conj eq_refl L4)). rewrite W. cbn [negb]. assumption.
Qed.
Lemma gen_init_iff : forall x o k pkt reply u, is_bytes pkt -> (gen_init' x o k pkt = Some (reply, u) <->
  exists cp sp K hk sig, pkt = enc_string cp /\ zlen cp <= 134217724 /\ kenc' (x_method x) (x_need x) o cp = Some (sp, K) /\ to_blob false k = Some hk /\
    zlen (hashed_gen (opened x false hk) cp sp K) <= 134217728 /\ sgn (hash (hashed_gen (opened x false hk) cp sp K)) (x_alg x) = Some sig /\
    reply = enc_string hk ++ enc_string sp ++ enc_string sig /\ zlen reply <= 134217728 /\ finish hash mdsz true x k (hash (hashed_gen (opened x false hk) cp sp K)) K = Some u).
Proof.
  intros x o k pkt reply u Hb. unfold gen_init. split.
  - intros H. destruct (get_str pkt) as [[cp r]|] eqn:E1; [|discriminate]. apply get_str_iff in E1 as (-> & L1); [|assumption]. destruct r as [|c r]; [|discriminate]. cbn [is_nil negb] in H.
    destruct (kenc' (x_method x) (x_need x) o cp) as [[sp K]|] eqn:E2; [|discriminate]. destruct (to_blob false k) as [hk|] eqn:E3; [|discriminate].
    destruct (gen_hash_in _ _ _ _ hk cp sp K) as [b|] eqn:E4; [|discriminate]. apply gen_hash_iff in E4 as (-> & L4). destruct (sgn _ _) as [sig|] eqn:E5; [|discriminate].
    destruct (put_str sig _) as [rep|] eqn:E6; [|discriminate]. destruct (finish hash mdsz true x k _ K) as [u'|] eqn:E7; [|discriminate].
    assert (rep = reply /\ u' = u) as (-> & ->) by (split; congruence). exists cp, sp, K, hk, sig. rewrite app_nil_r.
    apply put_str_fits_m in E6 as (b1 & E6 & -> & L6). apply put_str_fits_m in E6 as (b2 & E6 & -> & _). apply put_str_fits in E6 as (-> & _). cbn [app] in *. repeat rewrite <- app_assoc. repeat rewrite <- app_assoc in L6. splits; auto.
  - intros (cp & sp & K & hk & sig & -> & L1 & E2 & E3 & L4 & E5 & -> & L6 & E7). replace (enc_string cp) with (enc_string cp ++ []) by apply app_nil_r. rewrite get_str_enc by assumption. cbn [is_nil negb]. rewrite E2, E3.
    rewrite (proj2 (gen_hash_iff (x_cv x) (x_sv x) (x_peer x) (x_my x) hk cp sp K (hashed_gen (opened x false hk) cp sp K)) (conj eq_refl L4)). rewrite E5.
    assert (P : put_str sig (put_str sp (put_str hk (Some []))) = Some (enc_string hk ++ enc_string sp ++ enc_string sig)).
    { apply put_str_fits_m. exists (enc_string hk ++ enc_string sp). splits; [|now rewrite <- app_assoc|assumption]. apply put_str_fits_m. exists (enc_string hk). splits; [|reflexivity|lens; lia]. apply put_str_fits. split; [reflexivity|lens; lia]. }
    rewrite P, E7. reflexivity.
Qed.
Lemma finish_eq : forall server x k H K u, finish hash mdsz server x k H K = Some u -> u_host u = k /\ u_H u = H /\ u_K u = K.
Proof. intros server x k H K u F. unfold finish in F. destruct (kex_derive_keys _ _ _ _ _ _ _ _) as [[sid d]|]; [|discriminate]. injection F as <-. auto. Qed.
(** The keys of one side are those of the other, with the directions exchanged. *)
Definition mirrored (a b : outcome) : Prop :=
  u_H a = u_H b /\ u_K a = u_K b /\ u_sid a = u_sid b /\ kd_in (u_keys a) = kd_out (u_keys b) /\ kd_out (u_keys a) = kd_in (u_keys b).
Lemma mirror : forall xc xs kc ks H K uc, x_initial xc = x_initial xs -> x_sid xc = x_sid xs -> x_need xc = x_need xs ->
  finish hash mdsz false xc kc H K = Some uc -> exists us, finish hash mdsz true xs ks H K = Some us /\ mirrored uc us.
Proof.
  intros xc xs kc ks H K uc Ei Es En F. unfold finish, kex_derive_keys in *. rewrite <- Ei, <- Es, <- En. destruct (if x_initial xc then _ else _) as [sid|]; [|discriminate].
  destruct (derive_all hash mdsz 6 K H sid 65 (x_need xc)) as [keys|]; [|discriminate]. injection F as <-. eexists. split; [reflexivity|]. unfold mirrored. cbn. auto.
Qed.
Lemma mirror' : forall xc xs kc ks H K us, x_initial xc = x_initial xs -> x_sid xc = x_sid xs -> x_need xc = x_need xs ->
  finish hash mdsz true xs ks H K = Some us -> exists uc, finish hash mdsz false xc kc H K = Some uc /\ mirrored uc us.
Proof.
  intros xc xs kc ks H K us Ei Es En F. unfold finish, kex_derive_keys in *. rewrite Ei, Es, En. destruct (if x_initial xs then _ else _) as [sid|]; [|discriminate].
  destruct (derive_all hash mdsz 6 K H sid 65 (x_need xs)) as [keys|]; [|discriminate]. injection F as <-. eexists. split; [reflexivity|]. unfold mirrored. cbn. auto.
Qed.

(** ** The methods: what the client computes from the server's answer is what the
    server computed *)
Definition sound_ops (m : method) : Prop :=
  match m with
  | MDh _ _ => True
  | MEc c => (forall a b, ec_mul c a (ec_pub c b) = ec_mul c b (ec_pub c a)) /\
             (forall a, is_bytes (ec_pub c a) /\ 0 < zlen (ec_pub c a) <= 133 /\ hd 0 (ec_pub c a) = 4 /\ point_ok c (ec_pub c a) = true)
  | M25519 => (forall a b, sm a (sm b basepoint) = sm b (sm a basepoint)) /\ (forall a, zlen (sm a basepoint) = 32)
  | MHybrid k => (forall a b, sm a (sm b basepoint) = sm b (sm a basepoint)) /\ (forall a, zlen (sm a basepoint) = 32) /\
                 (forall sk, zlen (kem_pk k sk) = pk_len k) /\ (forall r pk, zlen (fst (kem_enc k r pk)) = ct_len k) /\
                 (forall sk r, kem_dec k sk (fst (kem_enc k r (kem_pk k sk))) = Some (snd (kem_enc k r (kem_pk k sk))))
  end.
Lemma drop4_put : forall z b, 0 <= z -> drop4 (put_bn z (Some [])) = Some b -> z < mp_top /\ b = mpint_body (to_bin z) /\ enc_string b = mp z.
Proof.
  intros z b Hz H. destruct (put_bn z (Some [])) as [w|] eqn:E; [|discriminate]. apply put_bn_iff in E as (b0 & E & -> & _ & L); [|assumption]. injection E as <-. cbn [drop4 app] in H.
  assert (b = mpint_body (to_bin z)) as ->; [|auto]. unfold mp, enc_string in H. rewrite zdrop_app in H by (rewrite zlen_be_enc; reflexivity). congruence.
Qed.
Lemma kagree : forall m need oc os cp sp K, sound_ops m -> 0 <= o_exp oc -> 0 <= o_exp os ->
  keypair' m need oc = Some cp -> kenc' m need os cp = Some (sp, K) -> kdec' m oc sp = Some K.
Proof.
  intros m need oc os cp sp K S Ec Es P H. destruct m as [p g|c| |k]; cbn [keypair kenc kdec] in *.
  - destruct (dh_gen_key p g (need * 8) (o_exp oc)) as [e|] eqn:Ge; [|discriminate]. destruct (dh_gen_key p g (need * 8) (o_exp os)) as [f|] eqn:Gf; [|discriminate].
    apply gen_key_iff in Ge as (He & Ve & _). apply gen_key_iff in Gf as (Hf & Vf & _). assert (Pp : 0 < p) by (destruct Ve; lia).
    assert (0 <= e /\ 0 <= f) as (Pe & Pf) by (destruct Ve, Vf; lia). apply drop4_put in P as (Le & _ & Me); [|assumption].
    destruct (drop4 (put_bn f (Some []))) as [fb|] eqn:Df; [|discriminate]. apply drop4_put in Df as (Lf & _ & Mf); [|assumption].
    destruct (put_str cp (Some [])) as [b|] eqn:Pc; [|discriminate]. apply put_str_fits in Pc as (-> & _). cbn [app] in H. rewrite Me in H. rewrite <- (app_nil_r (mp e)) in H. rewrite get_bn_mp in H by (try constructor; lia).
    destruct (dh_compute_key p (o_exp os) e) as [K'|] eqn:C; [|discriminate]. assert (fb = sp /\ K' = K) as (-> & ->) by (split; congruence). clear H.
    assert (Ps : put_str sp (Some []) = Some (mp f)).
    { apply put_str_fits. split; [now rewrite Mf|]. unfold mp. rewrite zlen_enc_string. pose proof (to_bin_mag f Pf) as M. unfold mpint_body. rewrite strip0_id by (intros r Er; rewrite Er in M; now apply M). apply to_bin_small in Lf; [|assumption]. destruct (msb _); rewrite ?zlen_cons; lia. }
    rewrite Ps. rewrite <- (app_nil_r (mp f)). rewrite get_bn_mp by (try constructor; lia). apply compute_iff in C as (_ & L & ->). apply compute_iff.
    assert (Q : f ^ o_exp oc mod p = e ^ o_exp os mod p) by (rewrite He, Hf; now apply dh_agree). rewrite Q. auto.
  - destruct S as (S & T). destruct (T (o_ec oc)) as (Bc & Lc & Hc & Oc). destruct (T (o_ec os)) as (Bs & Ls & Hs & Os). unfold put_point in *. change MAX_ECPOINT with 133 in *.
    assert (Q : forall a, zlen (ec_pub c a) <= 133 -> (133 <? zlen (ec_pub c a)) = false) by (intros; lia).
    rewrite (Q _ (proj2 Lc)) in P. rewrite (Q _ (proj2 Ls)) in H.
    assert (W : forall pt, zlen pt <= 133 -> put_str pt (Some []) = Some (enc_string pt)) by (intros pt L; apply put_str_fits; split; [reflexivity|rewrite zlen_enc_string; lia]).
    assert (X : forall pt, drop4 (Some (enc_string pt)) = Some pt) by (intros pt; unfold drop4, enc_string; rewrite zdrop_app by (rewrite zlen_be_enc; reflexivity); reflexivity).
    rewrite W, X in P by lia. rewrite W, X in H by lia. injection P as <-. rewrite W in H by lia.
    assert (G : forall pt, is_bytes pt -> 0 < zlen pt <= 133 -> hd 0 pt = 4 -> point_ok c pt = true -> get_point point_ok c (enc_string pt) = Some (pt, [])).
    { intros pt B L Hd O. unfold get_point. rewrite <- (app_nil_r (enc_string pt)). rewrite get_str_enc by lia. change MAX_ECPOINT with 133. replace ((zlen pt =? 0) || (133 <? zlen pt)) with false by lia. rewrite Hd, O. reflexivity. }
    rewrite G in H by assumption. destruct (put_bn _ (Some [])) as [K'|] eqn:PK; [|discriminate]. assert (ec_pub c (o_ec os) = sp /\ K' = K) as (<- & ->) by (split; congruence). rewrite W by lia. rewrite G by assumption. rewrite S. assumption.
  - destruct S as (S & L). injection P as <-. change CURVE25519_SIZE with 32 in *. rewrite L in H. cbn [negb Z.eqb Pos.eqb] in H. unfold x_shared in *. rewrite S in H. destruct (forallb _ _) eqn:Z0; [discriminate|].
    destruct (put_mpint _ _) as [K'|] eqn:PK; [|discriminate]. assert (sm (o_x os) basepoint = sp /\ K' = K) as (<- & ->) by (split; congruence). rewrite L. cbn [negb Z.eqb Pos.eqb]. rewrite Z0. assumption.
  - destruct S as (S & L & Lp & Lc & D). injection P as <-. change CURVE25519_SIZE with 32 in *. rewrite zlen_app, Lp, L, Z.eqb_refl in H. cbn [negb] in H. rewrite ztake_app in H by (now rewrite Lp). rewrite zdrop_app in H by (now rewrite Lp).
    destruct (match k with Sntrup => false | Mlkem => _ end); [discriminate|]. specialize (D (o_kem oc) (o_kem os)). specialize (Lc (o_kem os) (kem_pk k (o_kem oc))). destruct (kem_enc k (o_kem os) (kem_pk k (o_kem oc))) as [ct key]. cbn [fst snd] in *.
    destruct (hashed hash _) as [s|] eqn:HS; [|discriminate]. assert (ct ++ sm (o_x os) basepoint = sp /\ s = K) as (<- & ->) by (split; congruence). rewrite zlen_app, Lc, L, Z.eqb_refl. cbn [negb]. rewrite ztake_app by (now rewrite Lc). rewrite zdrop_app by (now rewrite Lc). rewrite D.
    unfold x_shared in *. rewrite S. assumption.
Qed.
End Exch.
