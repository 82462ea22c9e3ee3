(** C79: key exchange. *)
From Coq Require Import String Sorting.Sorted.
From Verif Require Import Base Text SshbufModel SshbufSpec SshbufProof MiscNumModel WireSpec WireProof AuthOptModel AuthOptProof Dec KeyModel KeySpec KexModel SigProof2 SigProof3 KeyProof KeyProof2 KeyProof3 PrivProof3 PrivProof4 ExchModel ExchSpec ExchProof ExchProof2 ExchProof3 ExchProof4.
Local Open Scope Z_scope.

(** ** What is hashed *)
(** The bytes are those of RFC 4253 section 8, for every exchange that fits a buffer. *)
Theorem C79_hash : forall cv sv ci si hk cp sp k b,
  gen_hash_in cv sv ci si hk cp sp k = Some b <-> b = hashed_gen (mkOp cv sv ci si hk) cp sp k /\ zlen b <= 134217728.
Proof. exact gen_hash_iff. Qed.
Print Assumptions C79_hash.
(** With group exchange they are those of RFC 4419, if none of the requested sizes is
    2^32 - 1. *)
Theorem C79_hash_gex : forall cv sv ci si hk min n max p g e f k b,
  0 <= min < 4294967295 -> 0 <= n < 4294967296 -> 0 <= max < 4294967295 -> 0 <= p -> 0 <= g -> 0 <= e -> 0 <= f ->
  gex_hash_in cv sv ci si hk (to_int min) (to_int n) (to_int max) p g e f k = Some b ->
  hashed_gex (mkOp cv sv ci si hk) min n max p g e f k b.
Proof.
  intros cv sv ci si hk min n max p g e f k b Rm Rn Rx Pp Pg Pe Pf H. apply gex_hash_iff in H as (-> & _); [|assumption|assumption|assumption|assumption].
  exists (mp p), (mp g), (mp e), (mp f). unfold gex_tail. rewrite !opt32_eq by lia. rewrite to_int_u32 by assumption. splits; auto using mp_number.
Qed.
Print Assumptions C79_hash_gex.
(** A request for groups of up to 2^32 - 1 bits is answered, and what is hashed then
    leaves the number out: a client following RFC 4419 gets another hash. *)
Theorem C79_hash_gex_refuted :
  (exists file which x o pkt p g f out, gex_request_in (choose_dh file which) x o pkt = QGroup 2048 3072 4294967295 p g f out) /\
  exists b, gex_hash_in [] [] [] [] [] (to_int 2048) (to_int 3072) (to_int 4294967295) 23 5 8 9 [1] = Some b /\
    ~ hashed_gex (mkOp [] [] [] [] []) 2048 3072 4294967295 23 5 8 9 [1] b.
Proof.
  split.
  - exists (Some ([mkL 2048 (2 ^ 2048 - 1) 15], [mkL 2048 (2 ^ 2048 - 1) 15])), (fun _ => 0), (mkX [] [] [] [] M25519 16 [] (FEd, false) None true []), (mkOwn 3 [] [] []), (be_enc 4 2048 ++ be_enc 4 3072 ++ be_enc 4 4294967295).
    eexists. eexists. eexists. eexists. vm_compute. reflexivity.
  - eexists. split; [vm_compute; reflexivity|]. intros (wp & wg & we & wf & E & Np & _).
    apply (f_equal (skipn 30)) in E. vm_compute in E. discriminate.
Qed.
Print Assumptions C79_hash_gex_refuted.
(** Two exchanges hash the same bytes only if they agree on the two version lines, the
    two KEXINIT messages, the host key, both public values and the secret. *)
Theorem C79_transcript : forall cv sv ci si hk cp sp k cv' sv' ci' si' hk' cp' sp' k' b,
  gen_hash_in cv sv ci si hk cp sp k = Some b -> gen_hash_in cv' sv' ci' si' hk' cp' sp' k' = Some b ->
  cv = cv' /\ sv = sv' /\ ci = ci' /\ si = si' /\ hk = hk' /\ cp = cp' /\ sp = sp' /\ k = k'.
Proof.
  intros cv sv ci si hk cp sp k cv' sv' ci' si' hk' cp' sp' k' b H H'. apply gen_hash_iff in H as (-> & L). apply gen_hash_iff in H' as (E & _). apply gen_split in E as (E & -> & -> & ->); [|assumption].
  unfold opening_of in E. injection E as -> -> -> -> ->. splits; auto.
Qed.
Print Assumptions C79_transcript.
(** Whichever kinds of exchange the two sides think they are in, the same bytes mean
    the same version lines, KEXINIT messages and host key. *)
Theorem C79_opening : forall cv sv ci si hk cp sp k cv' sv' ci' si' hk' min n max p g e f k' b, 0 <= p -> 0 <= g -> 0 <= e -> 0 <= f ->
  gen_hash_in cv sv ci si hk cp sp k = Some b -> gex_hash_in cv' sv' ci' si' hk' min n max p g e f k' = Some b ->
  cv = cv' /\ sv = sv' /\ ci = ci' /\ si = si' /\ hk = hk'.
Proof.
  intros cv sv ci si hk cp sp k cv' sv' ci' si' hk' min n max p g e f k' b Pp Pg Pe Pf H H'. apply gen_hash_iff in H as (-> & L). apply gex_hash_iff in H' as (E & _); [|assumption|assumption|assumption|assumption].
  unfold hashed_gen in *. apply opening_split in E as (E & _); [|assumption]. unfold opening_of in E. injection E as -> -> -> -> ->. splits; auto.
Qed.
Print Assumptions C79_opening.

(** ** Public values *)
(** The key is computed only from a value other than 0, 1, p-1 and those above, with at
    least four bits set, and is the power. *)
Theorem C79_dh_value : forall p x v K, dh_compute_key p x v = Some K -> sound_value p v /\ number K (v ^ x mod p).
Proof. intros p x v K H. apply compute_iff in H as (S & _ & ->). split; [assumption|]. apply mp_number. destruct S as (S & _). apply Z.mod_pos_bound. lia. Qed.
Print Assumptions C79_dh_value.
Theorem C79_dh_own : forall p g need x v, dh_gen_key p g need x = Some v -> v = g ^ x mod p /\ sound_value p v /\ 2 * need <= zbits p.
Proof. exact gen_key_iff. Qed.
Print Assumptions C79_dh_own.
(** The client takes only groups of 2048 to 8192 bits. *)
Theorem C79_group_size : forall x o pkt p g e, is_bytes pkt -> gex_group x o pkt = Some (p, g, e) ->
  (exists n, 2048 <= n <= 8192 /\ of_size p n) /\ e = g ^ o_exp o mod p /\ sound_value p e.
Proof.
  intros x o pkt p g e Hb H. apply gex_group_iff in H as (B & Rp & _ & E & V); [|assumption]. split; [|auto]. exists (zbits p). split; [assumption|]. unfold of_size. assert (Pp : 0 <= p) by apply Rp. clear -B Pp. split; [lia|]. apply zbits_spec; [assumption|lia|reflexivity].
Qed.
Print Assumptions C79_group_size.

(** ** The server's choice of a group *)
(** From an unchanged moduli file the server takes a group within the bounds asked for;
    one smaller than wanted only if there is none larger; one larger only if there is
    none in between; and in a file ordered by size the smallest that is large enough. *)
Theorem C79_choice : forall f which min want max p g, 0 < min -> 0 < want -> (forall n, 0 < n -> 0 <= which n < n) ->
  choose_dh (Some (f, f)) which min want max = Some (p, g) ->
  exists l, In l f /\ min <= l_size l <= max /\ p = l_p l /\ g = l_g l /\
    (l_size l < want -> forall l', In l' f -> min <= l_size l' <= max -> l_size l' <= l_size l) /\
    (want <= l_size l -> forall l', In l' f -> min <= l_size l' <= max -> ~ want < l_size l' < l_size l) /\
    (StronglySorted Z.le (map l_size f) -> want <= l_size l -> forall l', In l' f -> min <= l_size l' <= max -> ~ want <= l_size l' < l_size l).
Proof. exact choose_spec. Qed.
Print Assumptions C79_choice.
Theorem C79_no_group : forall f which min want max, 0 < min -> 0 < want ->
  (choose_dh (Some (f, f)) which min want max = None <-> forall l, In l f -> ~ (min <= l_size l <= max)).
Proof. exact choose_none. Qed.
Print Assumptions C79_no_group.
Example C79_choice_met : choose_dh (Some ([mkL 2048 7 2; mkL 4096 11 2; mkL 4096 13 2], [mkL 2048 7 2; mkL 4096 11 2; mkL 4096 13 2])) (fun n => n - 1) 2048 3072 8192 = Some (13, 2).
Proof. reflexivity. Qed.
(** In a file that is not ordered a group of just the wanted size can be passed over. *)
Theorem C79_choice_refuted : exists f which, (forall n, 0 < n -> 0 <= which n < n) /\
  choose_dh (Some (f, f)) which 2048 3072 8192 = Some (11, 2) /\ In (mkL 3072 13 2) f /\ In (mkL 4096 11 2) f.
Proof. exists [mkL 4096 11 2; mkL 3072 13 2], (fun _ => 0). splits; try lia; [reflexivity|right; left; reflexivity|left; reflexivity]. Qed.
Print Assumptions C79_choice_refuted.
(** Without a moduli file the fixed group can be larger than the client's maximum, or
    smaller than its minimum. *)
Theorem C79_fallback_refuted : forall which,
  (exists p g, choose_dh None which 2048 3072 3072 = Some (p, g) /\ zbits p = 4096) /\
  (exists p g, choose_dh None which 5000 5000 5000 = Some (p, g) /\ zbits p = 4096).
Proof. intros which. split; exists group16, 2; (split; [reflexivity|exact group16_size]). Qed.
Print Assumptions C79_fallback_refuted.
(** When no group fits, nobody answers: neither an error nor a group. *)
Theorem C79_silent_refuted : forall x o, exists f pkt, gex_request_in (choose_dh (Some (f, f)) (fun _ => 0)) x o pkt = QSilent.
Proof. intros x o. exists [mkL 4096 11 2], (be_enc 4 2048 ++ be_enc 4 2048 ++ be_enc 4 3072). reflexivity. Qed.
Print Assumptions C79_silent_refuted.

Section Exch.
Variable point_ok : curve -> list Z -> bool.
Variable ver : kpub -> list Z -> list Z -> bool.
Variable hash : list Z -> list Z.
Variable mdsz : Z.
Variable sm : list Z -> list Z -> list Z.
Variable ec_pub : curve -> list Z -> list Z.
Variable ec_mul : curve -> list Z -> list Z -> list Z.
Variable kem_pk : kem -> list Z -> list Z.
Variable kem_ok : list Z -> bool.
Variable kem_enc : kem -> list Z -> list Z -> list Z * list Z.
Variable kem_dec : kem -> list Z -> list Z -> option (list Z).
Variable verify : key -> list Z -> list Z -> list Z -> bool.
Variable sgn : list Z -> list Z -> option (list Z).
Variable trust : key -> bool.
Notation keypair' := (keypair sm ec_pub kem_pk).
Notation kdec' := (kdec point_ok hash sm ec_mul kem_dec).
Notation kenc' := (kenc point_ok hash sm ec_pub ec_mul kem_pk kem_ok kem_enc kem_dec).
Notation gen_reply' := (gen_reply point_ok ver hash mdsz sm ec_mul kem_dec verify trust).
Notation gen_init' := (gen_init point_ok hash mdsz sm ec_pub ec_mul kem_pk kem_ok kem_enc kem_dec sgn).
Notation gex_reply' := (gex_reply point_ok ver hash mdsz verify trust).
Notation gex_run' := (gex_run hash mdsz sgn).

(** With X25519 and the hybrids: the other side's value has exactly the right length,
    the X25519 result is not all zeros, and a hybrid's secret is the hash of the KEM's
    key and of that result. *)
Theorem C79_x25519 : forall o v K, kdec' M25519 o v = Some K ->
  zlen v = 32 /\ (exists c, In c (sm (o_x o) v) /\ c <> 0) /\ K = enc_string (mpint_body (sm (o_x o) v)).
Proof.
  intros o v K H. cbn [kdec] in H. destruct (zlen v =? CURVE25519_SIZE) eqn:L; [|discriminate]. cbn [negb] in H. unfold x_shared in H. destruct (forallb _ _) eqn:F; [discriminate|]. unfold put_mpint in H. destruct (SSHBUF_MAX_BIGNUM <? _); [discriminate|].
  apply put_str_fits in H as (-> & _). cbn [app]. unfold CURVE25519_SIZE in L. splits; [lia| |reflexivity]. clear -F. induction (sm (o_x o) v) as [|c l IH]; [discriminate|]. cbn [forallb] in F. destruct (c =? 0) eqn:E; [destruct (IH F) as (d & I & N); exists d; split; [right; assumption|assumption]|]. exists c. split; [left; reflexivity|lia].
Qed.
Theorem C79_hybrid : forall k o v K, kdec' (MHybrid k) o v = Some K ->
  exists ct xv key, v = ct ++ xv /\ zlen ct = ct_len k /\ zlen xv = 32 /\ kem_dec k (o_kem o) ct = Some key /\ (exists c, In c (sm (o_x o) xv) /\ c <> 0) /\
    K = enc_string (hash (key ++ sm (o_x o) xv)).
Proof.
  intros k o v K H. cbn [kdec] in H. destruct (zlen v =? ct_len k + CURVE25519_SIZE) eqn:L; [|discriminate]. cbn [negb] in H. destruct (kem_dec k (o_kem o) (ztake (ct_len k) v)) as [key|] eqn:D; [|discriminate].
  unfold hashed in H. destruct (x_shared _ _ _ _ _) as [b|] eqn:X; [|discriminate]. apply put_str_fits in H as (-> & _). unfold x_shared in X. destruct (forallb _ _) eqn:F; [discriminate|]. apply put_m in X as (b1 & X & -> & _). apply put_iff in X as (-> & _). cbn [app].
  assert (0 <= ct_len k) by (destruct k; cbn; lia). unfold CURVE25519_SIZE in L.
  exists (ztake (ct_len k) v), (zdrop (ct_len k) v), key. splits; auto.
  - symmetry. apply firstn_skipn. - apply zlen_ztake. lia. - rewrite zlen_zdrop; lia.
  - clear -F. induction (sm (o_x o) (zdrop (ct_len k) v)) as [|c l IH]; [discriminate|]. cbn [forallb] in F. destruct (c =? 0) eqn:E; [destruct (IH F) as (d & I & N); exists d; split; [right; assumption|assumption]|]. exists c. split; [left; reflexivity|lia].
Qed.

(** ** The client's verdict *)
(** The negotiated kind of key, and one the application accepts *)
Definition right_host (x : kctx) (k : key) : Prop :=
  (family_of (key_pub k), match key_cert k with Some _ => true | None => false end) = x_type x /\
  (x_type x = (FEc, false) -> exists c, nid_of (key_pub k) = Some c /\ x_nid x = Some c) /\ trust k = true.
Lemma host_iff : forall x k, verify_host_key trust x k = true <-> right_host x k.
Proof.
  intros x k. unfold verify_host_key, right_host. cbv zeta. set (ty := (family_of (key_pub k), _)).
  assert (T : forall a b, ktype_eqb a b = true <-> a = b) by (intros [[] []] [[] []]; unfold ktype_eqb; cbn; split; congruence).
  destruct (ktype_eqb ty (x_type x)) eqn:E.
  - apply T in E. cbn [negb orb]. destruct (ktype_eqb (x_type x) (FEc, false)) eqn:E2; cbn [andb].
    + destruct (nid_of (key_pub k)) as [a|], (x_nid x) as [b|]; cbn [negb].
      * destruct (curve_eqb a b) eqn:Q; cbn [negb].
        -- apply curve_eqb_iff in Q. subst b. split; [intros H; splits; eauto|tauto].
        -- split; [discriminate|]. intros (_ & H & _). apply T in E2. destruct (H E2) as (c & A & B). assert (a = b) as -> by congruence. assert (curve_eqb b b = true) by now apply curve_eqb_iff. congruence.
      * split; [discriminate|]. intros (_ & H & _). apply T in E2. destruct (H E2) as (c & A & B). discriminate.
      * split; [discriminate|]. intros (_ & H & _). apply T in E2. destruct (H E2) as (c & A & B). discriminate.
      * split; [discriminate|]. intros (_ & H & _). apply T in E2. destruct (H E2) as (c & A & B). discriminate.
    + split; [|tauto]. intros H. splits; auto. intros Q. apply T in Q. congruence.
  - cbn [negb orb]. split; [discriminate|]. intros (Q & _). apply T in Q. congruence.
Qed.
(** A reply is accepted exactly when it is a host key, a public value and a signature
    and nothing else, the key is of the negotiated kind and accepted by the
    application, the secret can be computed, and the signature by that key over the
    hash of the whole exchange verifies under the negotiated algorithm. *)
Theorem C79_accepts : forall x o cp pkt u, is_bytes pkt -> (gen_reply' x o cp pkt = Some u <->
  exists hk k sp sig K, let b := hashed_gen (mkOp (x_cv x) (x_sv x) (x_my x) (x_peer x) hk) cp sp K in
    pkt = enc_string hk ++ enc_string sp ++ enc_string sig /\ zlen hk <= 134217724 /\ zlen sp <= 134217724 /\ zlen sig <= 134217724 /\
    from_blob point_ok ver hk = Some k /\ right_host x k /\ kdec' (x_method x) o sp = Some K /\ zlen b <= 134217728 /\
    verify k sig (hash b) (x_alg x) = true /\ finish hash mdsz false x k (hash b) K = Some u).
Proof.
  intros x o cp pkt u Hb. cbv zeta. rewrite gen_reply_iff by assumption.
  split; intros (hk & k & sp & sig & K & A1 & A2 & A3 & A4 & A5 & A6 & A7 & A8 & A9 & A10); exists hk, k, sp, sig, K; apply host_iff in A6; splits; auto.
Qed.
(** With group exchange: the same, and the public value is sound. *)
Theorem C79_accepts_gex : forall x old nbits o p g e pkt u, is_bytes pkt -> 0 <= p -> 0 <= g -> 0 <= e -> gex_reply' x old nbits o p g e pkt = Some u ->
  right_host x (u_host u) /\ (exists f sig hk, sound_value p f /\ from_blob point_ok ver hk = Some (u_host u) /\ verify (u_host u) sig (u_H u) (x_alg x) = true /\ number (u_K u) (f ^ o_exp o mod p)).
Proof.
  intros x old nbits o p g e pkt u Hb Pp Pg Pe H. apply (gex_reply_acc point_ok ver hash mdsz verify sgn trust) in H as (hk & k & f & sig & K & wf & _ & _ & Fb & V & D & _ & _ & _ & _ & _ & W & F); [|assumption|assumption|assumption|assumption].
  apply finish_eq in F as (-> & -> & ->). apply host_iff in V. split; [assumption|]. apply C79_dh_value in D as (S & N). exists f, sig, hk. splits; auto.
Qed.

(** If the client accepts, and the holder of the host key makes no signature that
    verifies over this hash but in a run of the server side with that hash, then that
    run heard and said what the client said and heard - versions, KEXINITs, host key,
    public values - and has the same secret and the same keys, or the two runs exhibit
    a collision of the hash. *)
Theorem C79_authentic : forall xc oc cp pkt uc, is_bytes pkt -> gen_reply' xc oc cp pkt = Some uc ->
  (forall sig, verify (u_host uc) sig (u_H uc) (x_alg xc) = true ->
     exists xs os ks pkt' reply us, is_bytes pkt' /\ gen_init' xs os ks pkt' = Some (reply, us) /\ u_H us = u_H uc) ->
  exists xs os ks pkt' reply us, gen_init' xs os ks pkt' = Some (reply, us) /\
    ((x_cv xs = x_cv xc /\ x_sv xs = x_sv xc /\ x_peer xs = x_my xc /\ x_my xs = x_peer xc /\ pkt' = enc_string cp /\ u_K us = u_K uc /\
      (exists hk sp sig, pkt = enc_string hk ++ enc_string sp ++ enc_string sig /\ to_blob false ks = Some hk /\ kenc' (x_method xs) (x_need xs) os cp = Some (sp, u_K us)) /\
      (x_initial xc = x_initial xs -> x_sid xc = x_sid xs -> x_need xc = x_need xs ->
       u_sid uc = u_sid us /\ kd_in (u_keys uc) = kd_out (u_keys us) /\ kd_out (u_keys uc) = kd_in (u_keys us))) \/
     exists a b, client_text point_ok hash sm ec_mul kem_dec xc oc cp pkt a /\
       server_text point_ok hash sm ec_pub ec_mul kem_pk kem_ok kem_enc kem_dec xs os ks pkt' b /\ a <> b /\ hash a = hash b).
Proof.
  intros xc oc cp pkt uc Hb C U. pose proof C as C0. apply gen_reply_iff in C0 as (hk & k & sp & sig & K & _ & _ & _ & _ & _ & _ & _ & _ & W & F); [|assumption]. apply finish_eq in F as (Eu & EH & _). rewrite <- Eu, <- EH in W.
  destruct (U sig W) as (xs & os & ks & pkt' & reply & us & Hb' & S & E). exists xs, os, ks, pkt', reply, us. split; [assumption|].
  destruct (same_gen point_ok ver hash mdsz sm ec_pub ec_mul kem_pk kem_ok kem_enc kem_dec verify sgn trust xc oc cp pkt uc xs os ks pkt' reply us Hb Hb' C S E) as [((O1 & O2 & O3 & O4) & A & B & D & M)|Q]; [left|right; assumption].
  splits; auto. intros I1 I2 I3. destruct (M (conj I1 (conj I2 I3))) as (_ & _ & M1 & M2 & M3). auto.
Qed.
(** The same with group exchange, where the run also had the same sizes, group and
    values - although the server may leave numbers out of its hash. *)
Theorem C79_authentic_gex : forall xc oc dn large p g e gpkt pkt uc file which, is_bytes gpkt -> is_bytes pkt -> file_ok file ->
  gex_group xc oc gpkt = Some (p, g, e) -> gex_reply' xc false (gex_nbits dn large) oc p g e pkt = Some uc ->
  (forall sig, verify (u_host uc) sig (u_H uc) (x_alg xc) = true ->
     exists xs os ks req pkt' min n max p' g' f reply us, gex_run' file which xs os ks req pkt' min n max p' g' f reply us /\ u_H us = u_H uc) ->
  exists xs os ks req pkt' min n max p' g' f reply us, gex_run' file which xs os ks req pkt' min n max p' g' f reply us /\
    ((x_cv xs = x_cv xc /\ x_sv xs = x_sv xc /\ x_peer xs = x_my xc /\ x_my xs = x_peer xc /\
      min = 2048 /\ n = gex_nbits dn large /\ max = 8192 /\ p' = p /\ g' = g /\ get_bn pkt' = Some (e, []) /\ u_K us = u_K uc /\
      (exists hk wf sig, pkt = enc_string hk ++ wf ++ enc_string sig /\ to_blob false ks = Some hk /\ get_bn (wf ++ enc_string sig) = Some (f, enc_string sig)) /\
      (x_initial xc = x_initial xs -> x_sid xc = x_sid xs -> x_need xc = x_need xs ->
       u_sid uc = u_sid us /\ kd_in (u_keys uc) = kd_out (u_keys us) /\ kd_out (u_keys uc) = kd_in (u_keys us))) \/
     exists a b, gex_client_text xc oc (gex_nbits dn large) p g e pkt a /\ gex_server_text xs os ks min n max p' g' f pkt' b /\ a <> b /\ hash a = hash b).
Proof.
  intros xc oc dn large p g e gpkt pkt uc file which Hg Hb Ok Gg C U. apply gex_group_iff in Gg as (_ & Rp & Rg & _ & Ve); [|assumption].
  assert (Re : 0 <= e < mp_top). { destruct Ve as (Ve & _). destruct Rp as (Pp & Lp). split; [clear -Ve; lia|]. apply Z.lt_trans with p; [clear -Ve; lia|assumption]. }
  assert (Rn : 0 <= gex_nbits dn large <= 8192) by (clear; pose proof (nbits_range dn large); lia).
  pose proof C as C0. apply (gex_reply_acc point_ok ver hash mdsz verify sgn trust) in C0 as (hk & k & f0 & sig & K & wf & _ & _ & _ & _ & _ & _ & _ & _ & _ & _ & W & F); [|assumption|apply Rp|apply Rg|apply Re]. apply finish_eq in F as (Eu & EH & _). rewrite <- Eu, <- EH in W.
  destruct (U sig W) as (xs & os & ks & req & pkt' & min & n & max & p' & g' & f & reply & us & S & E). exists xs, os, ks, req, pkt', min, n, max, p', g', f, reply, us. split; [assumption|].
  destruct (same_gex point_ok ver hash mdsz verify sgn trust xc oc (gex_nbits dn large) p g e pkt uc file which xs os ks req pkt' min n max p' g' f reply us Hb Ok Rn Rp Rg Re C S E) as [((O1 & O2 & O3 & O4) & A1 & A2 & A3 & A4 & A5 & A6 & A7 & A8 & M)|Q]; [left|right; assumption].
  splits; auto. intros I1 I2 I3. destruct (M (conj I1 (conj I2 I3))) as (_ & _ & M1 & M2 & M3). auto.
Qed.

(** ** An honest exchange succeeds *)
Theorem C79_completes : forall xc oc cp xs os ks hk reply us, opposite xc xs -> sound_ops point_ok sm ec_pub ec_mul kem_pk kem_enc kem_dec (x_method xc) -> 0 <= o_exp oc -> 0 <= o_exp os ->
  to_blob false ks = Some hk -> from_blob point_ok ver hk = Some ks -> right_host xc ks -> (forall d s, sgn d (x_alg xs) = Some s -> verify ks s d (x_alg xs) = true) ->
  keypair' (x_method xc) (x_need xc) oc = Some cp -> is_bytes cp -> is_bytes reply ->
  gen_init' xs os ks (enc_string cp) = Some (reply, us) -> exists uc, gen_reply' xc oc cp reply = Some uc /\ mirrored uc us /\ u_host uc = ks.
Proof. intros xc oc cp xs os ks hk reply us A B C D E F G. apply host_iff in G. revert A B C D E F G. apply (completes_gen point_ok ver hash mdsz sm ec_pub ec_mul kem_pk kem_ok kem_enc kem_dec verify sgn trust). Qed.
Theorem C79_completes_gex : forall dn large xc oc req file which xs os ks hk min n max p g f out p' g' e ipkt reply us, opposite xc xs -> file_ok file -> 0 <= o_exp oc -> 0 <= o_exp os ->
  to_blob false ks = Some hk -> from_blob point_ok ver hk = Some ks -> right_host xc ks -> (forall d s, sgn d (x_alg xs) = Some s -> verify ks s d (x_alg xs) = true /\ is_bytes s) ->
  gex_request (gex_nbits dn large) = Some req -> gex_request_in (choose_dh file which) xs os req = QGroup min n max p g f out ->
  gex_group xc oc out = Some (p', g', e) -> put_bn e (Some []) = Some ipkt -> gex_init hash mdsz sgn xs os ks min n max p g f ipkt = Some (reply, us) ->
  exists uc, gex_reply' xc false (gex_nbits dn large) oc p' g' e reply = Some uc /\ mirrored uc us /\ u_host uc = ks.
Proof. intros dn large xc oc req file which xs os ks hk min n max p g f out p' g' e ipkt reply us A B C D E F G. apply host_iff in G. revert A B C D E F G. now apply (completes_gex point_ok ver hash mdsz sm ec_pub ec_mul kem_pk kem_ok kem_enc kem_dec verify sgn trust (gex_nbits dn large) dn large). Qed.
End Exch.
Print Assumptions C79_x25519.
Print Assumptions C79_hybrid.
Print Assumptions C79_accepts.
Print Assumptions C79_accepts_gex.
Print Assumptions C79_authentic.
Print Assumptions C79_authentic_gex.
Print Assumptions C79_completes.
Print Assumptions C79_completes_gex.

(** ** The hypotheses are met: a toy hash of 32 bytes, "signatures" that repeat what is
    signed, and the smallest possible curve operation. *)
Module Demo.
Definition h (b : list Z) : list Z := repeat (fold_left Z.add b 0 mod 251) 32.
Definition sm (a b : list Z) : list Z := repeat 7 32.
Definition host : key := mkKey (PEd (repeat 5 32)) None.
Definition xc (m : method) := mkX (bs "SSH-2.0-c") (bs "SSH-2.0-s") [1; 2] [3; 4; 5] m 16 (bs "ssh-ed25519") (FEd, false) None true [].
Definition xs (m : method) := mkX (bs "SSH-2.0-c") (bs "SSH-2.0-s") [3; 4; 5] [1; 2] m 16 (bs "ssh-ed25519") (FEd, false) None true [].
Definition oc := mkOwn 2 [] [1] [].
Definition os := mkOwn 3 [] [2] [].
Definition no2 (c : curve) (a : list Z) : list Z := [].
Definition no3 (c : curve) (a b : list Z) : list Z := [].
Definition init := gen_init (fun _ _ => false) h 32 sm no2 no3 (fun _ _ => []) (fun _ => false) (fun _ _ _ => ([], [])) (fun _ _ _ => None) (fun d _ => Some d).
Definition reply := gen_reply (fun _ _ => false) (fun _ _ _ => true) h 32 sm no3 (fun _ _ _ => None) (fun _ s d _ => beqb s d) (fun _ => true).
Definition file := Some ([mkL 2048 (2 ^ 2048 - 1) 15], [mkL 2048 (2 ^ 2048 - 1) 15]).
End Demo.
Example C79_gen_met :
  match Demo.init (Demo.xs M25519) Demo.os Demo.host (enc_string (Demo.sm [] [])) with
  | Some (pkt, us) => match Demo.reply (Demo.xc M25519) Demo.oc (Demo.sm [] []) pkt with
                      | Some uc => beqb (u_H uc) (u_H us) && beqb (kd_key (kd_in (u_keys uc))) (kd_key (kd_out (u_keys us))) | None => false end
  | None => false end = true.
Proof. vm_compute. reflexivity. Qed.
Example C79_gex_met :
  match gex_request (gex_nbits 16 false) with None => false | Some req =>
  match gex_request_in (choose_dh Demo.file (fun _ => 0)) (Demo.xs M25519) Demo.os req with
  | QGroup min n max p g f out =>
      match gex_group (Demo.xc M25519) Demo.oc out with None => false | Some (p', g', e) =>
      match put_bn e (Some []) with None => false | Some ipkt =>
      match gex_init Demo.h 32 (fun d _ => Some d) (Demo.xs M25519) Demo.os Demo.host min n max p g f ipkt with None => false | Some (pkt, us) =>
      match gex_reply (fun _ _ => false) (fun _ _ _ => true) Demo.h 32 (fun _ s d _ => beqb s d) (fun _ => true) (Demo.xc M25519) false (gex_nbits 16 false) Demo.oc p' g' e pkt with
      | Some uc => beqb (u_H uc) (u_H us) && beqb (u_K uc) (u_K us) | None => false end end end end
  | _ => false end end = true.
Proof. vm_compute. reflexivity. Qed.
Example C79_dh_met : exists K, dh_compute_key (2 ^ 64 - 59) 5 225 = Some K /\ dh_compute_key (2 ^ 64 - 59) 5 1 = None /\ dh_compute_key (2 ^ 64 - 59) 5 (2 ^ 64 - 60) = None /\ dh_compute_key (2 ^ 64 - 59) 5 1024 = None.
Proof. eexists. vm_compute. splits; reflexivity. Qed.
