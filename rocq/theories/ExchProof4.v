(** Proofs for C79, 4: an accepted exchange is the one the host key's owner ran. *)
From Coq Require Import String Sorting.Sorted.
From Verif Require Import Base Text SshbufModel SshbufSpec SshbufProof MiscNumModel WireSpec WireProof AuthOptModel AuthOptProof Dec KeyModel KeySpec KexModel SigProof2 SigProof3 KeyProof KeyProof2 KeyProof3 PrivProof3 PrivProof4 ExchModel ExchSpec ExchProof ExchProof2 ExchProof3.
Local Open Scope Z_scope.

Section Exch.
Variable point_ok : curve -> list Z -> bool.
Variable ver : kpub -> list Z -> list Z -> bool.
Variable hash : list Z -> list Z.
Variable mdsz : Z.
Variable sm : list Z -> list Z -> list Z.
Variable ec_pub : curve -> list Z -> list Z.
Variable ec_mul : curve -> list Z -> list Z -> list Z.
Variable kem_pk : kem -> list Z -> list Z.
Variable kem_ok : list Z -> bool.
Variable kem_enc : kem -> list Z -> list Z -> list Z * list Z.
Variable kem_dec : kem -> list Z -> list Z -> option (list Z).
Variable verify : key -> list Z -> list Z -> list Z -> bool.
Variable sgn : list Z -> list Z -> option (list Z).
Variable trust : key -> bool.
Notation keypair' := (keypair sm ec_pub kem_pk).
Notation kdec' := (kdec point_ok hash sm ec_mul kem_dec).
Notation kenc' := (kenc point_ok hash sm ec_pub ec_mul kem_pk kem_ok kem_enc kem_dec).
Notation gen_reply' := (gen_reply point_ok ver hash mdsz sm ec_mul kem_dec verify trust).
Notation gen_init' := (gen_init point_ok hash mdsz sm ec_pub ec_mul kem_pk kem_ok kem_enc kem_dec sgn).
Notation gex_reply' := (gex_reply point_ok ver hash mdsz verify trust).
Notation gex_init' := (gex_init hash mdsz sgn).

(** The bytes the two runs hash, read off their messages *)
Definition client_text (x : kctx) (o : own) (cp pkt a : list Z) : Prop :=
  exists hk sp sig K, pkt = enc_string hk ++ enc_string sp ++ enc_string sig /\ kdec' (x_method x) o sp = Some K /\ a = hashed_gen (opened x true hk) cp sp K.
Definition server_text (x : kctx) (o : own) (k : key) (pkt a : list Z) : Prop :=
  exists cp sp K hk, pkt = enc_string cp /\ kenc' (x_method x) (x_need x) o cp = Some (sp, K) /\ to_blob false k = Some hk /\ a = hashed_gen (opened x false hk) cp sp K.
(** The two runs are the two ends of one exchange. *)
Definition same_opening (xc xs : kctx) : Prop := x_cv xs = x_cv xc /\ x_sv xs = x_sv xc /\ x_peer xs = x_my xc /\ x_my xs = x_peer xc.
Definition in_step (xc xs : kctx) : Prop := x_initial xc = x_initial xs /\ x_sid xc = x_sid xs /\ x_need xc = x_need xs.
Lemma opened_eq : forall xc xs hk hk', opened xc true hk = opened xs false hk' -> same_opening xc xs /\ hk = hk'.
Proof. intros xc xs hk hk' E. unfold opened, opening_of in E. injection E as A B C D H. unfold same_opening. splits; congruence. Qed.
Definition one_exchange (xc : kctx) (cp pkt : list Z) (uc : outcome) (xs : kctx) (os : own) (ks : key) (pkt' : list Z) (us : outcome) : Prop :=
  same_opening xc xs /\ pkt' = enc_string cp /\ u_K us = u_K uc /\
  (exists hk sp sig, pkt = enc_string hk ++ enc_string sp ++ enc_string sig /\ to_blob false ks = Some hk /\ kenc' (x_method xs) (x_need xs) os cp = Some (sp, u_K us)) /\
  (in_step xc xs -> mirrored uc us).
Lemma same_gen : forall xc oc cp pkt uc xs os ks pkt' reply us, is_bytes pkt -> is_bytes pkt' ->
  gen_reply' xc oc cp pkt = Some uc -> gen_init' xs os ks pkt' = Some (reply, us) -> u_H us = u_H uc ->
  one_exchange xc cp pkt uc xs os ks pkt' us \/ (exists a b, client_text xc oc cp pkt a /\ server_text xs os ks pkt' b /\ a <> b /\ hash a = hash b).
Proof.
  intros xc oc cp pkt uc xs os ks pkt' reply us Hb Hb' C S EH. apply gen_reply_iff in C as (hk & k & sp & sig & K & -> & L1 & L2 & L3 & Fb & V & D & L4 & W & F); [|assumption].
  apply (gen_init_iff point_ok ver hash mdsz sm ec_pub ec_mul kem_pk kem_ok kem_enc kem_dec verify sgn trust) in S as (cp' & sp' & K' & hk' & sig' & -> & L1' & D' & B' & L4' & G' & -> & L6' & F'); [|assumption].
  pose proof (finish_eq _ _ _ _ _ _ _ _ F) as (_ & Hc & Kc). destruct (finish_eq _ _ _ _ _ _ _ _ F') as (_ & Hs & Ks). rewrite Hc, Hs in EH.
  destruct (list_eq_dec Z.eq_dec (hashed_gen (opened xc true hk) cp sp K) (hashed_gen (opened xs false hk') cp' sp' K')) as [E|N].
  - left. apply gen_split in E as (E & <- & <- & <-); [|assumption]. apply opened_eq in E as (O & <-). unfold one_exchange. splits; auto; try congruence.
    + exists hk, sp, sig. rewrite Ks. splits; auto.
    + intros (Ei & Es & En). destruct (mirror hash mdsz xc xs k ks _ _ _ Ei Es En F) as (us' & F2 & M). rewrite <- EH, F' in F2. injection F2 as <-. assumption.
  - right. exists (hashed_gen (opened xc true hk) cp sp K), (hashed_gen (opened xs false hk') cp' sp' K'). splits; auto.
    + exists hk, sp, sig, K. splits; auto. + exists cp', sp', K', hk'. splits; auto.
Qed.
(** A server run with group exchange, from the request on *)
Definition gex_run (file : option (list line * list line)) (which : Z -> Z) (x : kctx) (o : own) (k : key) (req pkt : list Z) (min n max p g f : Z) (reply : list Z) (u : outcome) : Prop :=
  is_bytes req /\ is_bytes pkt /\ exists out, gex_request_in (choose_dh file which) x o req = QGroup min n max p g f out /\ gex_init' x o k min n max p g f pkt = Some (reply, u).
Definition gex_client_text (x : kctx) (o : own) (nbits p g e : Z) (pkt a : list Z) : Prop :=
  exists hk f sig K wf, pkt = enc_string hk ++ wf ++ enc_string sig /\ get_bn (wf ++ enc_string sig) = Some (f, enc_string sig) /\ dh_compute_key p (o_exp o) f = Some K /\ a = client_bytes (opened x true hk) false nbits p g e f K.
Definition gex_server_text (x : kctx) (o : own) (k : key) (min n max p g f : Z) (pkt a : list Z) : Prop :=
  exists e K hk, get_bn pkt = Some (e, []) /\ dh_compute_key p (o_exp o) e = Some K /\ to_blob false k = Some hk /\ a = server_bytes (opened x false hk) min n max p g e f K.
Definition one_gex (xc : kctx) (nbits p g e : Z) (pkt : list Z) (uc : outcome) (xs : kctx) (ks : key) (min n max p' g' f : Z) (pkt' : list Z) (us : outcome) : Prop :=
  same_opening xc xs /\ min = 2048 /\ n = nbits /\ max = 8192 /\ p' = p /\ g' = g /\ get_bn pkt' = Some (e, []) /\ u_K us = u_K uc /\
  (exists hk wf sig, pkt = enc_string hk ++ wf ++ enc_string sig /\ to_blob false ks = Some hk /\ get_bn (wf ++ enc_string sig) = Some (f, enc_string sig)) /\
  (in_step xc xs -> mirrored uc us).
Lemma gex_group_iff : forall x o pkt p g e, is_bytes pkt -> gex_group x o pkt = Some (p, g, e) -> 2048 <= zbits p <= 8192 /\ 0 <= p < mp_top /\ 0 <= g < mp_top /\ e = g ^ o_exp o mod p /\ sound_value p e.
Proof.
  intros x o pkt p g e Hb H. unfold gex_group in H. destruct (get_bn pkt) as [[p' r]|] eqn:E1; [|discriminate]. pose proof (get_bn_iff _ _ _ Hb E1) as (Rp & Hr). destruct (get_bn r) as [[g' r']|] eqn:E2; [|discriminate]. pose proof (get_bn_iff _ _ _ Hr E2) as (Rg & _).
  destruct r'; [|discriminate]. cbn [is_nil negb] in H. unfold DH_GRP_MIN, DH_GRP_MAX in H. destruct ((zbits p' <? 2048) || (8192 <? zbits p')) eqn:B; [discriminate|]. destruct (dh_gen_key p' g' _ _) as [e'|] eqn:G; [|discriminate].
  assert (p' = p /\ g' = g /\ e' = e) as (-> & -> & ->) by (splits; congruence). apply gen_key_iff in G as (-> & V & _). split; [clear -B; lia|]. splits; auto; apply Rp || apply Rg.
Qed.
Lemma nbits_range : forall dn large, 2048 <= gex_nbits dn large <= 8192.
Proof. intros dn large. unfold gex_nbits, dh_estimate. cbv zeta. destruct (dn * 8 <=? 112), (dn * 8 <=? 128), (dn * 8 <=? 192), large; lia. Qed.
Lemma run_facts : forall file which x o k req pkt min n max p g f reply u, file_ok file -> gex_run file which x o k req pkt min n max p g f reply u ->
  0 <= min <= 8192 /\ 0 <= n < 4294967296 /\ 0 <= max < 4294967296 /\ 0 <= p /\ 0 <= g /\ zbits p <= 8192 /\ 0 <= f.
Proof.
  intros file which x o k req pkt min n max p g f reply u Ok (Hr & Hp & out & Q & _). apply request_iff in Q as (_ & R1 & R2 & R3 & _ & Kx & Kn & C & _ & G); [|assumption]. apply gen_key_iff in G as (_ & (V & _) & _).
  apply choose_bound in C as (Pp & Pg & B); [|assumption|clear; lia]. clear -R1 R2 R3 Kn Pp Pg B V. splits; lia.
Qed.
Lemma same_gex : forall xc oc nbits p g e pkt uc file which xs os ks req pkt' min n max p' g' f reply us, is_bytes pkt -> file_ok file ->
  0 <= nbits <= 8192 -> 0 <= p < mp_top -> 0 <= g < mp_top -> 0 <= e < mp_top ->
  gex_reply' xc false nbits oc p g e pkt = Some uc -> gex_run file which xs os ks req pkt' min n max p' g' f reply us -> u_H us = u_H uc ->
  one_gex xc nbits p g e pkt uc xs ks min n max p' g' f pkt' us \/
  (exists a b, gex_client_text xc oc nbits p g e pkt a /\ gex_server_text xs os ks min n max p' g' f pkt' b /\ a <> b /\ hash a = hash b).
Proof.
  intros xc oc nbits p g e pkt uc file which xs os ks req pkt' min n max p' g' f reply us Hb Ok Rn Rp Rg Re C S EH. pose proof (run_facts _ _ _ _ _ _ _ _ _ _ _ _ _ _ _ Ok S) as (Rmin & Rnn & Rmax & Pp & Pg & B & Pf).
  destruct S as (Hr & Hp & out & Q & S). apply (gex_reply_acc point_ok ver hash mdsz verify sgn trust) in C as (hk & k & f0 & sig & K & wf & -> & Gf & Fb & V & D & L & _ & _ & _ & Rf & W & F); [|assumption|apply Rp|apply Rg|apply Re].
  apply (gex_init_iff point_ok ver hash mdsz verify sgn trust) in S as (e' & K' & hk' & sig' & Ge & D' & B' & L' & Lp' & Lg' & Re' & Lf' & G' & -> & L6' & F'); [|assumption|assumption|assumption|assumption].
  pose proof (finish_eq _ _ _ _ _ _ _ _ F) as (_ & Hc & Kc). destruct (finish_eq _ _ _ _ _ _ _ _ F') as (_ & Hs & Ks). rewrite Hc, Hs in EH.
  destruct (list_eq_dec Z.eq_dec (client_bytes (opened xc true hk) false nbits p g e f0 K) (server_bytes (opened xs false hk') min n max p' g' e' f K')) as [E|N].
  - left. apply gex_split in E as (E & -> & -> & -> & <- & <- & <- & <- & <-); try assumption; try (split; assumption); [|clear -Rn; lia]. apply opened_eq in E as (O & <-). unfold one_gex. splits; auto; try congruence.
    + exists hk, wf, sig. splits; auto.
    + intros (Ei & Es & En). destruct (mirror hash mdsz xc xs k ks _ _ _ Ei Es En F) as (us' & F2 & M). rewrite <- EH, F' in F2. injection F2 as <-. assumption.
  - right. exists (client_bytes (opened xc true hk) false nbits p g e f0 K), (server_bytes (opened xs false hk') min n max p' g' e' f K'). splits; auto.
    + exists hk, f0, sig, K, wf. splits; auto. + exists e', K', hk'. splits; auto.
Qed.

(** ** An honest exchange is accepted *)
Definition opposite (xc xs : kctx) : Prop := same_opening xc xs /\ in_step xc xs /\ x_method xc = x_method xs /\ x_alg xc = x_alg xs.
Lemma opened_same : forall xc xs hk, same_opening xc xs -> opened xc true hk = opened xs false hk.
Proof. intros xc xs hk (A & B & C & D). unfold opened, opening_of. congruence. Qed.
Lemma completes_gen : forall xc oc cp xs os ks hk reply us, opposite xc xs -> sound_ops point_ok sm ec_pub ec_mul kem_pk kem_enc kem_dec (x_method xc) -> 0 <= o_exp oc -> 0 <= o_exp os ->
  to_blob false ks = Some hk -> from_blob point_ok ver hk = Some ks -> verify_host_key trust xc ks = true -> (forall d s, sgn d (x_alg xs) = Some s -> verify ks s d (x_alg xs) = true) ->
  keypair' (x_method xc) (x_need xc) oc = Some cp -> is_bytes cp -> is_bytes reply ->
  gen_init' xs os ks (enc_string cp) = Some (reply, us) -> exists uc, gen_reply' xc oc cp reply = Some uc /\ mirrored uc us /\ u_host uc = ks.
Proof.
  intros xc oc cp xs os ks hk reply us (O & (Ei & Es & En) & Em & Ea) So Pc Ps B Fb V Sg Kp Hc Hr S. apply (gen_init_iff point_ok ver hash mdsz sm ec_pub ec_mul kem_pk kem_ok kem_enc kem_dec verify sgn trust) in S as (cp' & sp & K & hk' & sig & E & L1 & D & B' & L4 & G & -> & L6 & F); [|now apply enc_bytes].
  assert (cp' = cp) as ->. { rewrite <- (app_nil_r (enc_string cp')), <- (app_nil_r (enc_string cp)) in E. assert (L : zlen (enc_string cp' ++ []) = zlen (enc_string cp ++ [])) by now rewrite E. rewrite !app_nil_r, !zlen_enc_string in L. apply enc_split in E as (E & _); [congruence|lia|lia]. }
  rewrite B in B'. injection B' as <-. destruct (mirror' hash mdsz xc xs ks ks _ _ _ Ei Es En F) as (uc & Fc & M). exists uc. destruct (finish_eq _ _ _ _ _ _ _ _ Fc) as (Hu & _). splits; auto. apply gen_reply_iff; [assumption|].
  exists hk, ks, sp, sig, K. rewrite (opened_same xc xs hk O). repeat rewrite zlen_app in L6. repeat rewrite zlen_enc_string in L6. pose proof (zlen_nonneg _ hk). pose proof (zlen_nonneg _ sp). pose proof (zlen_nonneg _ sig). splits; auto; try lia.
  - rewrite <- Em, <- En in D. eapply (kagree point_ok ver hash sm ec_pub ec_mul kem_pk kem_ok kem_enc kem_dec verify sgn); eauto.
  - rewrite Ea. now apply Sg.
Qed.
Lemma completes_gex : forall nbits dn large xc oc req file which xs os ks hk min n max p g f out p' g' e ipkt reply us, nbits = gex_nbits dn large -> opposite xc xs -> file_ok file -> 0 <= o_exp oc -> 0 <= o_exp os ->
  to_blob false ks = Some hk -> from_blob point_ok ver hk = Some ks -> verify_host_key trust xc ks = true -> (forall d s, sgn d (x_alg xs) = Some s -> verify ks s d (x_alg xs) = true /\ is_bytes s) ->
  gex_request nbits = Some req -> gex_request_in (choose_dh file which) xs os req = QGroup min n max p g f out ->
  gex_group xc oc out = Some (p', g', e) -> put_bn e (Some []) = Some ipkt -> gex_init' xs os ks min n max p g f ipkt = Some (reply, us) ->
  exists uc, gex_reply' xc false nbits oc p' g' e reply = Some uc /\ mirrored uc us /\ u_host uc = ks.
Proof.
  intros nbits dn large xc oc req file which xs os ks hk min n max p g f out p' g' e ipkt reply us Nb (O & (Ei & Es & En) & Em & Ea) Ok Pc Ps B Fb V Sg Rq Q Gg Pe S.
  pose proof (nbits_range dn large) as Rn. rewrite <- Nb in Rn. clear Nb.
  assert (Rq' : req = be_enc 4 2048 ++ be_enc 4 nbits ++ be_enc 4 8192).
  { unfold gex_request, put_u32 in Rq. apply put_m in Rq as (b1 & Rq & -> & _). apply put_m in Rq as (b2 & Rq & -> & _). apply put_m in Rq as (b3 & Rq & -> & _). injection Rq as <-. cbn [app]. rewrite <- app_assoc. change (u32 DH_GRP_MIN) with 2048. change (u32 DH_GRP_MAX) with 8192. replace (u32 nbits) with nbits; [reflexivity|]. symmetry. unfold u32. apply Z.mod_small. unfold U32. lia. }
  assert (Hreq : is_bytes req) by (rewrite Rq'; apply Forall_app; split; [apply be_enc_bytes|apply Forall_app; split; apply be_enc_bytes]).
  apply request_iff in Q as (Er & R1 & R2 & R3 & _ & _ & _ & C & Po & Gs); [|assumption]. rewrite Rq' in Er.
  apply be4_split in Er as (<- & Er); [|clear; lia|assumption]. apply be4_split in Er as (<- & Er); [|clear -Rn; lia|assumption]. rewrite <- (app_nil_r (be_enc 4 8192)), <- (app_nil_r (be_enc 4 max)) in Er. apply be4_split in Er as (<- & _); [|clear; lia|assumption].
  apply choose_bound in C as (Pp & Pg & Bp); [|assumption|clear; lia]. pose proof (gen_key_iff _ _ _ _ _ Gs) as (Ef & Vf & _). assert (Pf : 0 <= f) by (destruct Vf as (Vf & _); clear -Vf; lia).
  apply put_bn_iff in Po as (b & Po & -> & _ & Lg); [|assumption]. apply put_bn_iff in Po as (b' & Po & -> & _ & Lp); [|assumption]. injection Po as <-. cbn [app] in Gg.
  assert (Rp : 0 <= p < mp_top) by (split; assumption). assert (Rg : 0 <= g < mp_top) by (split; assumption).
  assert (E : p' = p /\ g' = g /\ e = g ^ o_exp oc mod p /\ sound_value p e).
  { unfold gex_group in Gg. rewrite get_bn_mp in Gg; [|assumption|apply enc_bytes, mpint_body_bytes, to_bin_bytes]. rewrite <- (app_nil_r (mp g)) in Gg. rewrite get_bn_mp in Gg; [|assumption|constructor]. cbn [is_nil negb] in Gg. destruct (_ || _); [discriminate|].
    destruct (dh_gen_key p g (x_need xc * 8) (o_exp oc)) as [e'|] eqn:Gc; [|discriminate]. apply gen_key_iff in Gc as (E' & V' & _). assert (p = p' /\ g = g' /\ e' = e) as (-> & -> & ->) by (splits; congruence). splits; auto. }
  destruct E as (-> & -> & Ee & Ve). assert (Pe0 : 0 <= e) by (destruct Ve as (Ve & _); clear -Ve; lia). assert (Pp' : 0 < p) by (destruct Ve as (Ve & _); clear -Ve; lia).
  apply put_bn_iff in Pe as (b & Pe & -> & _ & Le); [|assumption]. injection Pe as <-. cbn [app] in S. assert (Re : 0 <= e < mp_top) by (split; assumption).
  apply (gex_init_iff point_ok ver hash mdsz verify sgn trust) in S as (e' & K & hk' & sig & Ge & D & B' & L4 & _ & _ & _ & Lf & G & -> & L6 & F); [|apply enc_bytes, mpint_body_bytes, to_bin_bytes|assumption|assumption|assumption].
  rewrite <- (app_nil_r (mp e)) in Ge. rewrite get_bn_mp in Ge; [|assumption|constructor]. assert (e' = e) as -> by congruence. clear Ge. rewrite B in B'. assert (hk' = hk) as -> by congruence. clear B'.
  destruct (mirror' hash mdsz xc xs ks ks _ _ _ Ei Es En F) as (uc & Fc & M). exists uc. destruct (finish_eq _ _ _ _ _ _ _ _ Fc) as (Hu & _). splits; auto.
  destruct (Sg _ _ G) as (Ver & Bs). unfold gex_reply.
  assert (Lens : zlen hk <= 134217724 /\ zlen sig <= 134217724). { repeat rewrite zlen_app in L6. repeat rewrite zlen_enc_string in L6. clear -L6. pose proof (zlen_nonneg _ hk). pose proof (zlen_nonneg _ sig). pose proof (zlen_nonneg _ (mp f)). lia. }
  destruct Lens as (Lh & Ls). rewrite get_str_enc by assumption. rewrite Fb, V. cbn [negb]. rewrite get_bn_mp; [|split; assumption|now apply enc_bytes]. rewrite <- (app_nil_r (enc_string sig)). rewrite get_str_enc by assumption. cbn [is_nil negb].
  assert (Dc : dh_compute_key p (o_exp oc) f = Some K). { apply compute_iff in D as (_ & L & ->). apply compute_iff. assert (Qe : f ^ o_exp oc mod p = e ^ o_exp os mod p) by (rewrite Ee, Ef; apply dh_agree; assumption). rewrite Qe. splits; auto; apply Vf. }
  rewrite Dc. cbv zeta. unfold DH_GRP_MIN, DH_GRP_MAX.
  assert (Eb : server_bytes (opened xs false hk) 2048 nbits 8192 p g e f K = opening_bytes (opened xc true hk) ++ gex_tail 2048 nbits 8192 p g e f K).
  { rewrite (opened_same xc xs hk O). unfold server_bytes. rewrite !to_int_small by (clear -Rn; lia). reflexivity. }
  rewrite Eb in *. rewrite (proj2 (gex_hash_iff (x_cv xc) (x_sv xc) (x_my xc) (x_peer xc) hk 2048 nbits 8192 p g e f K _ Pp Pg Pe0 Pf) (conj eq_refl (conj L4 (conj Lp (conj Lg (conj Le Lf)))))).
  rewrite Ea. unfold opened in Ver. rewrite Ver. cbn [negb]. assumption.
Qed.
End Exch.
