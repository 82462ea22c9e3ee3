(** Proofs about the decision on a host key: DNS, the whole connection, and the
    file of revoked keys. *)
From Coq Require Import String.
From Verif Require Import Base Text MatchModel HostfileModel HostfileSpec HostfileProof2 HostcheckModel HostcheckSpec HostcheckProof HostcheckProof2 HostcheckProof3 HostcheckProof4.
Local Open Scope Z_scope.

(** ** Flags *)
Lemma land_bit : forall f n, 0 <= n -> (Z.land f (2 ^ n) =? 0) = negb (Z.testbit f n).
Proof.
  intros f n N. destruct (Z.testbit f n) eqn:B; cbn [negb].
  - apply Z.eqb_neq. intros X. assert (Y : Z.testbit (Z.land f (2 ^ n)) n = true) by (rewrite Z.land_spec, B, Z.pow2_bits_true by exact N; reflexivity).
    rewrite X, Z.bits_0 in Y. discriminate.
  - apply Z.eqb_eq. apply Z.bits_inj'. intros m M. rewrite Z.land_spec, Z.bits_0. destruct (Z.eq_dec m n) as [-> |D]; [now rewrite B|]. rewrite Z.pow2_bits_false by lia. apply andb_false_r.
Qed.
Lemma lor_bit : forall f n m, 0 <= n -> 0 <= m -> Z.testbit (Z.lor f (2 ^ n)) m = Z.testbit f m || (m =? n).
Proof. intros f n m N M. rewrite Z.lor_spec. f_equal. destruct (m =? n) eqn:E; [replace m with n by lia; now apply Z.pow2_bits_true|apply Z.pow2_bits_false; lia]. Qed.

Lemma lor2 : forall f m, 0 <= m -> Z.testbit (Z.lor f 2) m = Z.testbit f m || (m =? 1).
Proof. intros f m M. exact (lor_bit f 1 m ltac:(lia) M). Qed.
Lemma lor8 : forall f m, 0 <= m -> Z.testbit (Z.lor f 8) m = Z.testbit f m || (m =? 3).
Proof. intros f m M. exact (lor_bit f 3 m ltac:(lia) M). Qed.

Lemma land1 : forall f, (Z.land f 1 =? 0) = negb (Z.testbit f 0).
Proof. intros f. exact (land_bit f 0 ltac:(lia)). Qed.
Lemma land2 : forall f, (Z.land f 2 =? 0) = negb (Z.testbit f 1).
Proof. intros f. exact (land_bit f 1 ltac:(lia)). Qed.
Lemma land4 : forall f, (Z.land f 4 =? 0) = negb (Z.testbit f 2).
Proof. intros f. exact (land_bit f 2 ltac:(lia)). Qed.
Lemma land8 : forall f, (Z.land f 8 =? 0) = negb (Z.testbit f 3).
Proof. intros f. exact (land_bit f 3 ltac:(lia)). Qed.
(** ** DNS *)
Section Dns.
Variable en : henv.
Variable k : hkey.
(** A record that counts. *)
Definition counts (rdata : list Z) (d digest : list Z) : Prop :=
  exists dtype, rdata = sshfp (sshfp_alg (hk_type k)) dtype digest /\ (dtype = 1 \/ dtype = 2) /\ en_digest en dtype k = Some d /\ zlen d = zlen digest.
Lemma records_ok : forall rs f g, dns_records en k rs f = DnsRet 0 g ->
  (Z.testbit g 0 = Z.testbit f 0) /\ (Z.testbit g 2 = Z.testbit f 2) /\
  (Z.testbit g 1 = true <-> Z.testbit f 1 = true \/ exists r d, In r rs /\ counts r d d) /\
  (Z.testbit g 3 = true <-> Z.testbit f 3 = true \/ exists r d digest, In r rs /\ counts r d digest /\ d <> digest) /\
  (forall alg dtype digest, In (sshfp alg dtype digest) rs -> dtype = 1 \/ dtype = 2).
Proof.
  induction rs as [|r rs IH]; intros f g H; cbn [dns_records] in H.
  - injection H as <-. split; [reflexivity|]. split; [reflexivity|]. split; [|split].
    + split; [now left|intros [X|(r & d & [] & _)]; exact X].
    + split; [now left|intros [X|(r & d & dg & [] & _)]; exact X].
    + intros alg dtype digest [].
  - assert (Skip : forall r, (forall d dg, ~ counts r d dg) -> forall f g, (forall alg dtype digest, r = sshfp alg dtype digest -> dtype = 1 \/ dtype = 2) -> dns_records en k rs f = DnsRet 0 g ->
      (Z.testbit g 0 = Z.testbit f 0) /\ (Z.testbit g 2 = Z.testbit f 2) /\
      (Z.testbit g 1 = true <-> Z.testbit f 1 = true \/ exists r0 d, In r0 (r :: rs) /\ counts r0 d d) /\
      (Z.testbit g 3 = true <-> Z.testbit f 3 = true \/ exists r0 d digest, In r0 (r :: rs) /\ counts r0 d digest /\ d <> digest) /\
      (forall alg dtype digest, In (sshfp alg dtype digest) (r :: rs) -> dtype = 1 \/ dtype = 2)).
    { clear r f g H. intros r Nc f g T H. destruct (IH f g H) as (A0 & A2 & A1 & A3 & A4). split; [exact A0|]. split; [exact A2|]. split; [|split].
      - rewrite A1. split; (intros [X|(r0 & d & I & C)]; [now left|right]); exists r0, d; (split; [|exact C]); [now right|]. destruct I as [<- |I]; [now elim (Nc d d)|exact I].
      - rewrite A3. split; (intros [X|(r0 & d & dg & I & C & Nd)]; [now left|right]); exists r0, d, dg; (split; [|now split]); [now right|]. destruct I as [<- |I]; [now elim (Nc d dg)|exact I].
      - intros alg dtype digest [I|I]; [eapply T; exact I|eapply A4; exact I]. }
    destruct (zlen r <? 2) eqn:L.
    { apply Skip with (r := r) in H; [exact H| |].
      - intros d dg (dtype & -> & _). unfold sshfp in L. rewrite !zlen_cons in L. pose proof (zlen_nonneg _ dg). lia.
      - intros alg dtype dg ->. unfold sshfp in L. rewrite !zlen_cons in L. pose proof (zlen_nonneg _ dg). lia. }
    destruct r as [|alg [|dtype digest]]; [discriminate L|discriminate L|]. clear L. cbn [nth] in H. change (zdrop 2 (alg :: dtype :: digest)) with digest in H.
    destruct ((dtype =? 1) || (dtype =? 2)) eqn:Dt; [|cbn [orb] in H; rewrite orb_true_r in H; discriminate].
    assert (Dt' : dtype = 1 \/ dtype = 2) by lia. destruct ((sshfp_alg (hk_type k) =? 0) || (dtype =? 0)); [discriminate|].
    destruct (en_digest en dtype k) as [d|] eqn:Dg; [|discriminate].
    assert (T : forall alg' dtype' digest', alg :: dtype :: digest = sshfp alg' dtype' digest' -> dtype' = 1 \/ dtype' = 2) by (unfold sshfp; intros a b c [= <- <- <-]; exact Dt').
    destruct ((sshfp_alg (hk_type k) =? alg) && (zlen d =? zlen digest)) eqn:Ct.
    2:{ apply Skip with (r := alg :: dtype :: digest) in H; [exact H| |exact T]. intros d' dg (dt & E & _ & Dg2 & Z). unfold sshfp in E. injection E as -> <- <-. rewrite Dg in Dg2. injection Dg2 as <-.
        rewrite Z.eqb_refl in Ct. cbn [andb] in Ct. lia. }
    apply andb_true_iff in Ct as [Ct1 Ct2]. assert (Ea : alg = sshfp_alg (hk_type k)) by lia.
    assert (Cc : counts (alg :: dtype :: digest) d digest) by (exists dtype; split; [now rewrite Ea|]; split; [exact Dt'|]; split; [exact Dg|lia]).
    assert (Cu : forall d' dg, counts (alg :: dtype :: digest) d' dg -> d' = d /\ dg = digest) by (intros d' dg (dt & E & _ & Dg2 & _); unfold sshfp in E; injection E as _ <- <-; split; [congruence|reflexivity]).
    destruct (IH _ _ H) as (A0 & A2 & A1 & A3 & A4). destruct (beqb d digest) eqn:Eq.
    + apply beqb_eq in Eq. subst digest. rewrite lor2 in A0, A2, A1, A3 by (compute; discriminate).
      split; [rewrite A0; apply orb_false_r|]. split; [rewrite A2; apply orb_false_r|]. split; [|split].
      * rewrite A1. split; [intros _; right; exists (alg :: dtype :: d), d; split; [now left|exact Cc]|]. intros _. left. apply orb_true_r.
      * rewrite A3, orb_false_r. split; (intros [X|(r0 & d' & dg & I & C & Nd)]; [now left|right]); exists r0, d', dg; (split; [|now split]); [now right|]. destruct I as [<- |I]; [|exact I]. destruct (Cu _ _ C). congruence.
      * intros a b c [I|I]; [eapply T; exact I|eapply A4; exact I].
    + assert (Ne : d <> digest) by (intros X; apply beqb_eq in X; congruence). rewrite lor8 in A0, A2, A1, A3 by (compute; discriminate).
      split; [rewrite A0; apply orb_false_r|]. split; [rewrite A2; apply orb_false_r|]. split; [|split].
      * rewrite A1, orb_false_r. split; (intros [X|(r0 & d' & I & C)]; [now left|right]); exists r0, d'; (split; [|exact C]); [now right|]. destruct I as [<- |I]; [|exact I]. destruct (Cu _ _ C). congruence.
      * rewrite A3. split; [intros _; right; exists (alg :: dtype :: digest), d, digest; split; [now left|now split]|]. intros _. left. apply orb_true_r.
      * intros a b c [I|I]; [eapply T; exact I|eapply A4; exact I].
Qed.

Definition dns_flags (g : Z) : bool := negb (Z.land g 1 =? 0) && negb (Z.land g 2 =? 0) && negb (Z.land g 4 =? 0).
Lemma dns_ok : forall r g, verify_host_key_dns en k = DnsRet r g -> r = 0 -> dns_flags g = true -> dns_says en k.
Proof.
  intros r g H -> F. unfold verify_host_key_dns in H. destruct (en_numeric en) eqn:Nu; [discriminate|]. destruct (en_rrset en) as [[v rs]|] eqn:Rr; [|discriminate].
  set (f := if zlen rs =? 0 then _ else _) in H. destruct (dns_records en k rs f) as [r' g'|] eqn:D; [|discriminate].
  destruct (r' =? 0) eqn:R0; [|injection H; lia]. assert (r' = 0) as -> by lia. destruct (records_ok _ _ _ D) as (A0 & A2 & A1 & A3 & A4).
  injection H as Eg. assert (F1 : Z.testbit f 1 = false /\ Z.testbit f 3 = false /\ (Z.testbit f 2 = v)).
  { unfold f. destruct v, (zlen rs =? 0); repeat split; reflexivity. }
  destruct F1 as (F1 & F3 & F2). unfold dns_flags in F. apply andb_true_iff in F as [F G3]. apply andb_true_iff in F as [G1 G2].
  rewrite land4, negb_involutive in G3. rewrite land2, negb_involutive in G2.
  assert (N8 : Z.testbit g' 3 = false).
  { rewrite land8, negb_involutive in Eg. destruct (Z.testbit g' 3); [|reflexivity]. exfalso. rewrite <- Eg in G2.
    rewrite Z.land_spec, Z.lnot_spec in G2 by (compute; discriminate). change (Z.testbit 2 1) with true in G2. rewrite andb_false_r in G2. discriminate. }
  rewrite land8, N8 in Eg. cbn [negb] in Eg. subst g'.
  split; [exact Nu|]. exists rs. rewrite A2, F2 in G3. rewrite G3 in Rr. split; [exact Rr|]. split.
  - apply A1 in G2. rewrite F1 in G2. destruct G2 as [G2|(x & d & I & (dt & -> & T & Dg & _))]; [discriminate|]. exists dt, d. auto.
  - intros dt dg d I Dg Z. destruct (list_eq_dec Z.eq_dec d dg) as [E|E]; [exact E|]. exfalso. assert (X : Z.testbit g 3 = true); [|congruence].
    apply A3. right. exists (sshfp (sshfp_alg (hk_type k)) dt dg), d, dg. split; [exact I|]. split; [|exact E]. exists dt. split; [reflexivity|]. split; [eapply A4; exact I|]. now split.
Qed.
(** The other way round: the records of known types only. *)
Lemma dns_complete : dns_says en k -> sshfp_alg (hk_type k) <> 0 ->
  (forall v rs, en_rrset en = Some (v, rs) -> Forall (fun r => zlen r < 2 \/ exists alg dtype digest, r = sshfp alg dtype digest /\ (dtype = 1 \/ dtype = 2) /\ en_digest en dtype k <> None) rs) ->
  exists g, verify_host_key_dns en k = DnsRet 0 g /\ dns_flags g = true.
Proof.
  intros (Nu & rs & Rr & (dt & dg & I & T & Dg) & Fa) Ka Wf. specialize (Wf _ _ Rr). unfold verify_host_key_dns. rewrite Nu, Rr.
  set (f := if zlen rs =? 0 then _ else _).
  assert (Ret : forall l f, Forall (fun r => zlen r < 2 \/ exists alg dtype digest, r = sshfp alg dtype digest /\ (dtype = 1 \/ dtype = 2) /\ en_digest en dtype k <> None) l -> exists g, dns_records en k l f = DnsRet 0 g).
  { clear -Ka. induction l as [|r l IH]; intros f W; [eexists; reflexivity|]. inversion W as [|? ? W1 W2]; subst. cbn [dns_records]. destruct (zlen r <? 2) eqn:L; [now apply IH|].
    destruct W1 as [W1|(alg & dt & dg & -> & T & D)]; [lia|]. unfold sshfp. cbn [nth]. change (zdrop 2 (alg :: dt :: dg)) with dg. replace ((dt =? 1) || (dt =? 2)) with true by lia.
    replace (sshfp_alg (hk_type k) =? 0) with false by lia. replace (dt =? 0) with false by lia. cbn [orb]. destruct (en_digest en dt k) as [d|]; [|now elim D]. now apply IH. }
  destruct (Ret rs f Wf) as [g Rg]. rewrite Rg. rewrite Z.eqb_refl. destruct (records_ok _ _ _ Rg) as (A0 & A2 & A1 & A3 & A4).
  assert (Nz : (zlen rs =? 0) = false) by (destruct rs as [|x l]; [destruct I|]; rewrite zlen_cons; pose proof (zlen_nonneg _ l); clear -H; lia).
  assert (F3 : Z.testbit g 3 = false).
  { apply not_true_is_false. intros B. apply A3 in B. destruct B as [B|(r & d & dg' & I' & (dt' & -> & T' & D' & Z') & Ne)]; [unfold f in B; rewrite Nz in B; discriminate|].
    apply Ne. eapply Fa; eassumption. }
  rewrite land8, F3. cbn [negb]. eexists. split; [reflexivity|]. unfold dns_flags.
  rewrite land1, land2, land4, !negb_involutive. rewrite A0, A2. unfold f. rewrite Nz.
  replace (Z.testbit g 1) with true; [reflexivity|]. symmetry. apply A1. right. exists (sshfp (sshfp_alg (hk_type k)) dt dg), dg. split; [exact I|]. exists dt. auto.
Qed.
End Dns.

(** ** The connection *)
Lemma equal_identical : forall a b, sshkey_equal a b = true <-> identical a b.
Proof.
  intros a b. unfold sshkey_equal, identical, sshkey_is_cert, equal_public. rewrite !andb_true_iff, beqb_eq, Z.eqb_eq.
  destruct (hk_cert a) as [[x ca]|]; cbn [is_some].
  - destruct (hk_cert b) as [[y cb]|]; [rewrite beqb_eq|]; split.
    + intros [[A ->] B]. split; [exact A|]. split; [exact B|]. intros x' ca' [= <- <-]. now exists cb.
    + intros (A & B & C). destruct (C x ca eq_refl) as [ca' D]. injection D as <- <-. auto.
    + intros [[A B] _]. discriminate.
    + intros (A & B & C). destruct (C x ca eq_refl) as [ca' D]. discriminate.
  - split; [intros [[A _] B]; split; [exact A|split; [exact B|discriminate]]|]. intros (A & B & _). auto.
Qed.
Lemma identical_trans : forall a b c, identical a b -> identical b c -> identical a c.
Proof. intros a b c (A1 & A2 & A3) (B1 & B2 & B3). split; [congruence|]. split; [congruence|]. intros x ca E. destruct (A3 x ca E) as [ca' F]. exact (B3 x ca' F). Qed.
Lemma identical_refl : forall a, identical a a.
Proof. intros a. split; [reflexivity|]. split; [reflexivity|]. intros x ca E. now exists ca. Qed.

Section Conn.
Variable cf : hconf.
Variable hostname : list Z.
Variable rsa_ok : hkey -> bool.
Notation evolves := (evolves cf).
Definition plain_drops (en : henv) : Prop := forall k j, en_plain en k = Some j -> hk_cert j = None.

Lemma verify_ok : forall en k prev w prev' w', plain_drops en -> verify_host_key cf en hostname k prev w = VRet 0 prev' w' ->
  prev' = Some k /\ evolves w w' /\
  ((w' = w /\ exists q, prev = Some q /\ identical q k) \/ own_reason cf en hostname k w w').
Proof.
  intros en k prev w prev' w' Pd H. unfold verify_host_key in H.
  assert (Out : forall r w1, verify_out en r prev k w1 = VRet 0 prev' w' -> r = 0 /\ prev' = Some k /\ w1 = w').
  { intros r w1. unfold verify_out. destruct (r =? 0) eqn:R; [|intros [= X]; lia]. intros [= Cp Pr <-]. rewrite Cp in Pr. cbn in Pr. split; [lia|]. split; [congruence|reflexivity]. }
  destruct (en_fp en k); [|apply Out in H as (H & _); discriminate].
  destruct (equal_opt prev k) eqn:Eq.
  { apply Out in H as (_ & P & <-). split; [exact P|]. split; [apply evolves_refl|]. left. split; [reflexivity|]. destruct prev as [q|]; [|discriminate]. exists q. split; [reflexivity|]. now apply equal_identical. }
  destruct (hc_revoked cf && negb (en_revfile en k =? 0)) eqn:Rv; [apply Out in H as (H & _); discriminate|].
  assert (Rv' : hc_revoked cf = true -> en_revfile en k = 0) by (intros X; rewrite X in Rv; cbn [andb] in Rv; apply negb_false_iff in Rv; lia).
  assert (Check : match check_host_key cf en hostname (hc_port cf) k RDRW w with HAccept w => verify_out en 0 prev k w | HRefuse w => verify_out en (-1) prev k w | other => VEnd other end = VRet 0 prev' w' ->
    prev' = Some k /\ evolves w w' /\ ((w' = w /\ exists q, prev = Some q /\ identical q k) \/ own_reason cf en hostname k w w')).
  { intros X. destruct (check_host_key cf en hostname (hc_port cf) k RDRW w) as [w1|w1|w1|w1|w1] eqn:C; try discriminate.
    apply Out in X as (_ & P & <-). destruct (check_basis cf en Pd hostname (hc_port cf) k RDRW w w1 C) as [B E]. split; [exact P|]. split; [exact E|]. right. split; [exact Rv'|now right]. }
  destruct (hc_dns cf =? 0) eqn:Dn; [now apply Check|]. destruct (negb (en_copy en k =? 0)) eqn:Cp; [apply Out in H as (X & _); lia|].
  destruct (if sshkey_is_cert k then en_plain en k else Some k) as [j|] eqn:Pl; [|discriminate].
  destruct (verify_host_key_dns en j) as [r g|] eqn:Vd; [|discriminate].
  match type of H with (if ?b then _ else _) = _ => destruct b eqn:B end; [|now apply Check].
  apply Out in H as (_ & P & <-). split; [exact P|]. split; [apply evolves_refl|]. right. split; [exact Rv'|]. left.
  apply andb_true_iff in B as [B B5]. apply andb_true_iff in B as [B B4]. apply andb_true_iff in B as [B B3]. apply andb_true_iff in B as [B1 B2]. split; [lia|]. exists j. split.
  - unfold sshkey_is_cert in Pl. destruct (hk_cert k); cbn [is_some] in Pl; [right; split; [discriminate|exact Pl]|left; split; [reflexivity|congruence]].
  - eapply dns_ok; [exact Vd|lia|]. unfold dns_flags. now rewrite B2, B4, B5.
Qed.

(** A key accepted in its own right in an earlier exchange. *)
Definition earlier_reason (xs : list (henv * (Z * Z) * hkey)) (w : hworld) (k : hkey) : Prop :=
  exists en want k0 w1 w2, In (en, want, k0) xs /\ identical k0 k /\ evolves w w1 /\ evolves w1 w2 /\ own_reason cf en hostname k0 w1 w2.
Lemma kex_ok : forall en want k prev w prev' w', kex_verify cf en hostname want rsa_ok k prev w = KGoOn prev' w' ->
  hk_type k = fst want /\ (fst want = KEY_ECDSA -> hk_nid k = snd want) /\ rsa_ok k = true /\ verify_host_key cf en hostname k prev w = VRet 0 prev' w'.
Proof.
  intros en want k prev w prev' w' H. unfold kex_verify in H. destruct (negb (hk_type k =? fst want) || _) eqn:T; [discriminate|]. apply orb_false_iff in T as [T1 T2].
  destruct (rsa_ok k); cbn [negb] in H; [|discriminate]. destruct (verify_host_key cf en hostname k prev w) as [r p w1|]; [|discriminate]. destruct (negb (r =? 0)) eqn:R; [discriminate|]. injection H as <- <-.
  split; [lia|]. split; [intros X; rewrite X in T2; cbn [andb Z.eqb] in T2; rewrite X in *; lia|]. split; [reflexivity|]. f_equal. lia.
Qed.

Lemma history_ok : forall ys xs prev w0 w prev' w', Forall (fun x => plain_drops (fst (fst x))) ys ->
  evolves w0 w -> (forall q, prev = Some q -> earlier_reason xs w0 q) ->
  kex_history cf hostname rsa_ok ys prev w = KGoOn prev' w' ->
  (forall i en want k, nth_error ys i = Some (en, want, k) -> earlier_reason (xs ++ firstn (S i) ys) w0 k /\ hk_type k = fst want /\ (fst want = KEY_ECDSA -> hk_nid k = snd want) /\ rsa_ok k = true) /\ evolves w w'.
Proof.
  induction ys as [|[[en want] k] ys IH]; intros xs prev w0 w prev' w' Pd E0 Pr H; cbn [kex_history] in H.
  - injection H as <- <-. split; [intros [|i]; discriminate|apply evolves_refl].
  - inversion Pd as [|? ? Pd1 Pd2]; subst. cbn [fst] in Pd1. destruct (kex_verify cf en hostname want rsa_ok k prev w) as [p1 w1| |] eqn:K; try discriminate.
    destruct (kex_ok _ _ _ _ _ _ _ K) as (T1 & T2 & T3 & V). destruct (verify_ok _ _ _ _ _ _ Pd1 V) as (-> & E1 & R).
    assert (Rk : earlier_reason (xs ++ [(en, want, k)]) w0 k).
    { destruct R as [(_ & q & Q & I)|R].
      - destruct (Pr q Q) as (en0 & want0 & k0 & w2 & w3 & A & B & C). exists en0, want0, k0, w2, w3. split; [apply in_or_app; now left|]. split; [eapply identical_trans; eassumption|exact C].
      - exists en, want, k, w, w1. split; [apply in_or_app; right; now left|]. split; [apply identical_refl|]. auto. }
    destruct (IH (xs ++ [(en, want, k)]) (Some k) w0 w1 prev' w' Pd2) as [A B]; [eapply evolves_trans; eassumption|intros q [= <-]; exact Rk|exact H|].
    split; [|eapply evolves_trans; eassumption]. intros [|i] en1 want1 k1 N; cbn [nth_error] in N.
    + injection N as <- <- <-. cbn [firstn]. split; [exact Rk|auto].
    + destruct (A i en1 want1 k1 N) as (A1 & A2). split; [|exact A2]. rewrite <- app_assoc in A1. exact A1.
Qed.
End Conn.

(** ** The file of revoked keys *)
Lemma key_line_ok : forall l, match skip_blank l with [] => true | c :: _ => (c =? 35) || (c =? 10) || (c =? 0) end = false <-> key_line l (skip_blank l).
Proof.
  intros l. destruct (skip_head l) as [E|E].
  - rewrite E. split; [discriminate|]. intros (b & _ & _ & N & _). now elim N.
  - split.
    + intros H. assert (K : forall s, exists b, s = b ++ skip_blank s /\ Forall gap b).
      { induction s as [|c s (b & Eb & F)]; [exists []; cbn; auto|]. cbn [skip_blank]. destruct ((c =? 32) || (c =? 9)) eqn:G.
        - exists (c :: b). cbn [app]. rewrite <- Eb. split; [reflexivity|]. constructor; [unfold gap; lia|exact F].
        - exists []. split; [reflexivity|constructor]. }
      destruct (K l) as (b & Eb & F). exists b. split; [exact Eb|]. split; [exact F|]. destruct (skip_blank l) as [|c r]; [discriminate|]. cbn [hd] in *. split; [discriminate|]. split; [exact E|]. lia.
    + intros (b & _ & _ & N & _ & A & B & C). destruct (skip_blank l) as [|c r]; [now elim N|]. cbn [hd] in *. lia.
Qed.
Lemma key_line_fun : forall l rest, key_line l rest -> rest = skip_blank l.
Proof.
  intros l rest (b & -> & F & N & G & _). rewrite skip_app by exact F. destruct rest as [|c r]; [reflexivity|]. cbn [skip_blank hd] in *. unfold gap in G. now replace ((c =? 32) || (c =? 9)) with false by lia.
Qed.
Definition hits (k pub : hkey) : Prop := same_public k pub \/ signed_by k pub.
Lemma hits_iff : forall k pub, equal_public k pub || (sshkey_is_cert k && ca_is k pub) = true <-> hits k pub.
Proof.
  intros k pub. rewrite orb_true_iff, andb_true_iff, ca_is_iff. unfold equal_public, hits, same_public. rewrite beqb_eq. split; (intros [A|A]; [now left|right]).
  - apply A.
  - split; [|exact A]. destruct A as [b A]. unfold sshkey_is_cert. now rewrite A.
Qed.
Lemma in_file_ok : forall read k lines,
  (in_file_lines read k lines = 0 -> exists l rest, In l lines /\ key_line l rest /\ (read rest = inr 0 \/ exists pub, read rest = inl pub /\ hits k pub)) /\
  (in_file_lines read k lines = KEY_NOT_FOUND_ERR -> forall l rest, In l lines -> key_line l rest ->
     read rest = inr KEY_LENGTH_ERR \/ read rest = inr KEY_NOT_FOUND_ERR \/ (exists pub, read rest = inl pub /\ ~ hits k pub) \/
     exists l' rest', In l' lines /\ key_line l' rest' /\ read rest' = inr KEY_NOT_FOUND_ERR).
Proof.
  intros read k. induction lines as [|l lines [IH1 IH2]]; cbn [in_file_lines].
  - split; [discriminate|intros _ l rest []].
  - match goal with |- context [if ?b then _ else _] => destruct b eqn:Sk end.
    + split.
      * intros H. destruct (IH1 H) as (l' & rest & I & R). exists l', rest. split; [now right|exact R].
      * intros H l' rest [<- |I] K.
        -- rewrite (key_line_fun _ _ K) in K. apply key_line_ok in K. congruence.
        -- destruct (IH2 H l' rest I K) as [R|[R|[R|(l2 & rest2 & I2 & R)]]]; auto. right. right. right. exists l2, rest2. split; [now right|exact R].
    + apply key_line_ok in Sk. destruct (read (skip_blank l)) as [pub|e] eqn:Rd.
      * destruct (equal_public k pub || (sshkey_is_cert k && ca_is k pub)) eqn:Hi.
        -- split; [|discriminate]. intros _. exists l, (skip_blank l). split; [now left|]. split; [exact Sk|]. right. exists pub. split; [exact Rd|now apply hits_iff].
        -- split.
           ++ intros H. destruct (IH1 H) as (l' & rest & I & R). exists l', rest. split; [now right|exact R].
           ++ intros H l' rest [<- |I] K.
              ** apply key_line_fun in K. subst rest. right. right. left. exists pub. split; [exact Rd|]. intros X. apply hits_iff in X. congruence.
              ** destruct (IH2 H l' rest I K) as [R|[R|[R|(l2 & rest2 & I2 & R)]]]; auto. right. right. right. exists l2, rest2. split; [now right|exact R].
      * destruct (e =? KEY_LENGTH_ERR) eqn:Ke.
        -- split.
           ++ intros H. destruct (IH1 H) as (l' & rest & I & R). exists l', rest. split; [now right|exact R].
           ++ intros H l' rest [<- |I] K.
              ** apply key_line_fun in K. subst rest. left. rewrite Rd. f_equal. lia.
              ** destruct (IH2 H l' rest I K) as [R|[R|[R|(l2 & rest2 & I2 & R)]]]; auto. right. right. right. exists l2, rest2. split; [now right|exact R].
        -- split.
           ++ intros ->. exists l, (skip_blank l). split; [now left|]. split; [exact Sk|now left].
           ++ intros -> l' rest _ _. right. right. right. exists l, (skip_blank l). split; [now left|]. now split.
Qed.
