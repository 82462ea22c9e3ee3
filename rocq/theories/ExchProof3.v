(** Proofs for C79, 3: group exchange. *)
From Coq Require Import String Sorting.Sorted.
From Verif Require Import Base Text SshbufModel SshbufSpec SshbufProof MiscNumModel WireSpec WireProof AuthOptModel AuthOptProof Dec KeyModel KeySpec KexModel SigProof2 SigProof3 KeyProof KeyProof2 KeyProof3 PrivProof3 PrivProof4 ExchModel ExchSpec ExchProof ExchProof2.
Local Open Scope Z_scope.

(** ** The choice of a group *)
Definition fits_in (min max : Z) (l : line) : Prop := min <= l_size l <= max.
Definition fitsb (min max : Z) (l : line) : bool := (min <=? l_size l) && (l_size l <=? max).
Lemma fitsb_iff : forall min max l, fitsb min max l = true <-> fits_in min max l.
Proof. intros. unfold fitsb, fits_in. lia. Qed.
Definition cnt (min max best : Z) (f : list line) : Z := zlen (filter (fun l => fitsb min max l && (l_size l =? best)) f).
Lemma cnt_app1 : forall min max best f l, cnt min max best (f ++ [l]) = cnt min max best f + (if fitsb min max l && (l_size l =? best) then 1 else 0).
Proof. intros. unfold cnt. rewrite filter_app, zlen_app. cbn [filter]. destruct (fitsb min max l && _); reflexivity. Qed.
Lemma cnt_zero : forall min max best f, (forall l, In l f -> fits_in min max l -> l_size l <> best) -> cnt min max best f = 0.
Proof.
  intros min max best f H. unfold cnt. induction f as [|l f IH]; [reflexivity|]. cbn [filter]. destruct (fitsb min max l && (l_size l =? best)) eqn:E.
  - exfalso. apply andb_prop in E as (E & E'). apply fitsb_iff in E. apply (H l); [left; reflexivity|assumption|lia].
  - apply IH. intros x I. apply H. right. assumption.
Qed.
(** After the first reading of [f] *)
Definition seen (min want max : Z) (f : list line) (st : Z * Z) : Prop :=
  let (best, count) := st in
  count = cnt min max best f /\
  (best = 0 -> forall l, In l f -> ~ fits_in min max l) /\
  (best <> 0 -> exists l, In l f /\ fits_in min max l /\ l_size l = best) /\
  (best < want -> forall l, In l f -> fits_in min max l -> l_size l <= best) /\
  (want <= best -> forall l, In l f -> fits_in min max l -> ~ want < l_size l < best).
Lemma first_seen : forall min want max f st, 0 < min -> 0 < want -> fold_left (first_step min want max) f (0, 0) = st -> seen min want max f st.
Proof.
  intros min want max f st Pm Pw. revert st. induction f as [|l f IH] using rev_ind; intros st H.
  - cbn [fold_left] in H. subst st. cbn [seen]. splits; try reflexivity; intros; cbn [In] in *; try contradiction; lia.
  - rewrite fold_left_app in H. cbn [fold_left] in H. specialize (IH _ eq_refl). destruct (fold_left (first_step min want max) f (0, 0)) as [best count]. cbn [seen] in IH. destruct IH as (C & Z0 & Ex & Lt & Ge).
    assert (InA : forall x, In x (f ++ [l]) <-> In x f \/ x = l) by (intros x; rewrite in_app_iff; cbn [In]; intuition congruence).
    unfold first_step in H. destruct ((max <? l_size l) || (l_size l <? min)) eqn:R.
    + subst st. cbn [seen]. rewrite cnt_app1. assert (Nf : ~ fits_in min max l) by (unfold fits_in; lia). assert (fitsb min max l = false) by (unfold fitsb; lia).
      rewrite H. cbn [andb]. splits.
      * lia.
      * intros E x I. apply InA in I as [I | ->]; auto.
      * intros E. destruct (Ex E) as (x & I & F). exists x. rewrite InA. auto.
      * intros E x I F. apply InA in I as [I | ->]; [auto|contradiction].
      * intros E x I F. apply InA in I as [I | ->]; [auto|contradiction].
    + assert (Fl : fits_in min max l) by (unfold fits_in; lia). assert (Fb : fitsb min max l = true) by (unfold fitsb; lia). assert (Pl : 0 < l_size l) by (unfold fits_in in Fl; lia).
      destruct (((want <? l_size l) && (l_size l <? best)) || ((best <? l_size l) && (best <? want))) eqn:U.
      * rewrite Z.eqb_refl in H. subst st. cbn [seen]. rewrite cnt_app1, Fb, Z.eqb_refl. cbn [andb]. splits.
        -- rewrite cnt_zero; [reflexivity|]. intros x I F E. destruct (Z.lt_ge_cases best want) as [B|B].
           ++ specialize (Lt B x I F). lia.
           ++ specialize (Ge B x I F). lia.
        -- lia.
        -- intros _. exists l. rewrite InA. auto.
        -- intros E x I F. apply InA in I as [I | ->]; [|lia]. destruct (Z.lt_ge_cases best want) as [B|B]; [specialize (Lt B x I F); lia|lia].
        -- intros E x I F. apply InA in I as [I | ->]; [|lia]. destruct (Z.lt_ge_cases best want) as [B|B]; [specialize (Lt B x I F); lia|specialize (Ge B x I F); lia].
      * assert (B0 : best <> 0) by lia.
        assert (S : seen min want max (f ++ [l]) (best, count + (if l_size l =? best then 1 else 0))).
        { cbn [seen]. rewrite cnt_app1, Fb. cbn [andb]. splits.
          - lia. - lia.
          - intros E. destruct (Ex E) as (x & I & F). exists x. rewrite InA. auto.
          - intros E x I F. apply InA in I as [I | ->]; [auto|lia].
          - intros E x I F. apply InA in I as [I | ->]; [auto|lia]. }
        destruct (l_size l =? best); subst st; [assumption|]. rewrite Z.add_0_r in S. assumption.
Qed.
Lemma second_in : forall min max best f c w l, second_pass min max best c w f = Some l -> In l f /\ fits_in min max l /\ l_size l = best.
Proof.
  induction f as [|x f IH]; intros c w l H; [discriminate|]. cbn [second_pass] in H. destruct (((max <? l_size x) || (l_size x <? min)) || negb (l_size x =? best)) eqn:E.
  - apply IH in H as (I & F). split; [right; assumption|assumption].
  - destruct (c =? w); [injection H as <-; unfold fits_in; splits; [left; reflexivity|lia|lia|lia]|]. apply IH in H as (I & F). split; [right; assumption|assumption].
Qed.
Lemma second_some : forall min max best f c w, c <= w < c + cnt min max best f -> exists l, second_pass min max best c w f = Some l.
Proof.
  intros min max best. induction f as [|x f IH]; intros c w H; [unfold cnt in H; cbn [filter] in H; change (zlen (@nil line)) with 0 in H; lia|].
  cbn [second_pass]. unfold cnt in *. cbn [filter] in H. unfold fitsb in H at 1. destruct (((max <? l_size x) || (l_size x <? min)) || negb (l_size x =? best)) eqn:E.
  - replace ((min <=? l_size x) && (l_size x <=? max) && (l_size x =? best)) with false in H by lia. apply IH. assumption.
  - replace ((min <=? l_size x) && (l_size x <=? max) && (l_size x =? best)) with true in H by lia. rewrite zlen_cons in H. destruct (c =? w) eqn:W; [eauto|]. apply IH. lia.
Qed.
Lemma first_sorted : forall min want max f best count, 0 < min -> 0 < want -> StronglySorted Z.le (map l_size f) -> fold_left (first_step min want max) f (0, 0) = (best, count) ->
  want < best -> forall l, In l f -> fits_in min max l -> l_size l < want \/ best <= l_size l.
Proof.
  intros min want max f best count Pm Pw. revert best count. induction f as [|l f IH] using rev_ind; intros best count S H B x I F; [contradiction|].
  rewrite map_app in S. cbn [map] in S.
  assert (S' : StronglySorted Z.le (map l_size f) /\ Forall (fun s => s <= l_size l) (map l_size f)).
  { clear -S. induction (map l_size f) as [|a r IH]; [split; constructor|]. cbn [app] in S. inversion S as [|? ? S1 S2]; subst. destruct (IH S1) as (A & Bb). apply Forall_app in S2 as (S2 & S3). inversion S3; subst. split; constructor; auto. }
  destruct S' as (S1 & S2). rewrite fold_left_app in H. cbn [fold_left] in H. destruct (fold_left (first_step min want max) f (0, 0)) as [b0 c0] eqn:E0.
  pose proof (first_seen min want max f (b0, c0) Pm Pw E0) as (_ & _ & Ex & Lt & _). specialize (IH b0 c0 S1 eq_refl).
  assert (Mono : forall y, In y f -> l_size y <= l_size l) by (intros y Iy; apply (proj1 (Forall_forall _ _) S2); now apply in_map).
  unfold first_step in H. destruct ((max <? l_size l) || (l_size l <? min)) eqn:R.
  - injection H as -> ->. apply in_app_iff in I as [I|[<-|[]]]; [eauto|unfold fits_in in F; lia].
  - destruct (((want <? l_size l) && (l_size l <? b0)) || ((b0 <? l_size l) && (b0 <? want))) eqn:U.
    + rewrite Z.eqb_refl in H. assert (best = l_size l) as -> by congruence. apply in_app_iff in I as [I|[<-|[]]]; [|lia].
      destruct (Z.lt_ge_cases b0 want) as [L|G]; [specialize (Lt L x I F); lia|]. exfalso. assert (b0 <> 0) by lia. destruct (Ex H0) as (y & Iy & _ & Ey). specialize (Mono y Iy). lia.
    + assert (best = b0) as -> by (destruct (l_size l =? b0); congruence). apply in_app_iff in I as [I|[<-|[]]]; [eauto|].
      assert (b0 <> 0) by lia. destruct (Ex H0) as (y & Iy & _ & Ey). specialize (Mono y Iy). lia.
Qed.
Lemma choose_spec : forall f which min want max p g, 0 < min -> 0 < want -> (forall n, 0 < n -> 0 <= which n < n) ->
  choose_dh (Some (f, f)) which min want max = Some (p, g) ->
  exists l, In l f /\ fits_in min max l /\ p = l_p l /\ g = l_g l /\
    (l_size l < want -> forall l', In l' f -> fits_in min max l' -> l_size l' <= l_size l) /\
    (want <= l_size l -> forall l', In l' f -> fits_in min max l' -> ~ want < l_size l' < l_size l) /\
    (StronglySorted Z.le (map l_size f) -> want <= l_size l -> forall l', In l' f -> fits_in min max l' -> ~ want <= l_size l' < l_size l).
Proof.
  intros f which min want max p g Pm Pw W H. unfold choose_dh in H. destruct (fold_left (first_step min want max) f (0, 0)) as [best count] eqn:E. pose proof (first_seen min want max f (best, count) Pm Pw E) as (C & Z0 & Ex & Lt & Ge).
  destruct (count =? 0) eqn:C0; [discriminate|]. assert (Pc : 0 < count) by (rewrite C; unfold cnt in *; pose proof (zlen_nonneg _ (filter (fun l => fitsb min max l && (l_size l =? best)) f)); lia).
  specialize (W count Pc). destruct (second_some min max best f 0 (which count)) as (l & S); [lia|]. rewrite S in H. assert (p = l_p l /\ g = l_g l) as (-> & ->) by (split; congruence). apply second_in in S as (I & F & Eb). subst best. exists l. splits; auto.
  intros So B l' I' F' Hb. destruct (Z.eq_dec want (l_size l)) as [Q|Q]; [lia|]. destruct (first_sorted min want max f _ _ Pm Pw So E ltac:(lia) l' I' F'); lia.
Qed.
Lemma choose_none : forall f which min want max, 0 < min -> 0 < want -> (choose_dh (Some (f, f)) which min want max = None <-> forall l, In l f -> ~ fits_in min max l).
Proof.
  intros f which min want max Pm Pw. unfold choose_dh. destruct (fold_left (first_step min want max) f (0, 0)) as [best count] eqn:E. pose proof (first_seen min want max f (best, count) Pm Pw E) as (C & Z0 & Ex & _). destruct (count =? 0) eqn:C0.
  - split; [|reflexivity]. intros _. destruct (Z.eq_dec best 0) as [B|B]; [auto|]. exfalso. destruct (Ex B) as (l & I & F & Es).
    assert (0 < count); [|lia]. rewrite C. unfold cnt. assert (In l (filter (fun x => fitsb min max x && (l_size x =? best)) f)) by (apply filter_In; split; [assumption|]; apply fitsb_iff in F; rewrite F; lia). destruct (filter _ f); [contradiction|]. rewrite zlen_cons. pose proof (zlen_nonneg _ l1). lia.
  - split; [destruct (second_pass _ _ _ _ _ _); discriminate|]. intros N. exfalso. destruct (Z.eq_dec best 0) as [B|B]; [|destruct (Ex B) as (l & I & F & _); eapply N; eauto].
    rewrite C, cnt_zero in C0; [discriminate|]. intros l I F. exfalso. eapply N; eauto.
Qed.
Lemma group14_size : zbits group14 = 2048. Proof. vm_compute. reflexivity. Qed.
Lemma group16_size : zbits group16 = 4096. Proof. vm_compute. reflexivity. Qed.
Lemma group18_size : zbits group18 = 8192. Proof. vm_compute. reflexivity. Qed.
Lemma fallback_size : forall max, zbits (fst (group_fallback max)) <= 8192 /\ 2048 <= zbits (fst (group_fallback max)).
Proof. intros max. unfold group_fallback. destruct (max <? 3072); [|destruct (max <? 6144)]; cbn [fst]; rewrite ?group14_size, ?group16_size, ?group18_size; lia. Qed.
(** The sizes in a moduli file are those of the moduli (parse_prime's check). *)
Definition well_formed (f : list line) : Prop := Forall (fun l => 0 <= l_p l /\ 0 <= l_g l /\ zbits (l_p l) = l_size l) f.
Definition file_ok (file : option (list line * list line)) : Prop := match file with None => True | Some (a, b) => well_formed a /\ well_formed b end.
Lemma group_nonneg : 0 <= group14 /\ 0 <= group16 /\ 0 <= group18.
Proof. splits; vm_compute; discriminate. Qed.
Lemma fallback_pos : forall max, 0 <= fst (group_fallback max) /\ 0 <= snd (group_fallback max).
Proof. intros max. destruct group_nonneg as (A & B & C). unfold group_fallback. destruct (max <? 3072); [|destruct (max <? 6144)]; cbn [fst snd]; (split; [assumption|lia]). Qed.
Lemma choose_bound : forall file which min want max p g, file_ok file -> max <= 8192 -> choose_dh file which min want max = Some (p, g) -> 0 <= p /\ 0 <= g /\ zbits p <= 8192.
Proof.
  intros file which min want max p g Ok Mx H.
  assert (Fb : forall q h, group_fallback max = (q, h) -> 0 <= q /\ 0 <= h /\ zbits q <= 8192).
  { intros q h E. pose proof (fallback_size max) as F. pose proof (fallback_pos max) as P. rewrite E in F, P. cbn [fst snd] in F, P. lia. }
  destruct file as [[a b]|]; cbn [choose_dh] in H; [|apply Fb; congruence]. destruct (fold_left _ _ _) as [best count]. destruct (count =? 0); [discriminate|]. destruct (second_pass min max best 0 (which count) b) as [l|] eqn:S; [|apply Fb; congruence].
  apply second_in in S as (I & F & _). destruct Ok as (_ & Ok). apply (proj1 (Forall_forall _ _) Ok) in I as (A & B & C). assert (p = l_p l /\ g = l_g l) as (-> & ->) by (split; congruence). unfold fits_in in F. splits; auto; lia.
Qed.

(** ** The messages *)
Lemma to_int_u32 : forall v, 0 <= v < 4294967296 -> u32 (to_int v) = v.
Proof. intros v H. unfold to_int, u32. change U32 with 4294967296. destruct (v <? 2147483648) eqn:E; [apply Z.mod_small; lia|]. replace (v - 4294967296) with (v + (-1) * 4294967296) by lia. rewrite Z.mod_add by lia. apply Z.mod_small. lia. Qed.
Lemma to_int_small : forall v, 0 <= v < 2147483648 -> to_int v = v.
Proof. intros v H. unfold to_int. now replace (v <? 2147483648) with true by lia. Qed.
Lemma to_int_m1 : forall v, 0 <= v < 4294967296 -> (to_int v = -1 <-> v = 4294967295).
Proof. intros v H. unfold to_int. destruct (v <? 2147483648) eqn:E; lia. Qed.
Lemma opt32_eq : forall v, 0 <= v < 4294967296 -> v <> 4294967295 -> opt32 (to_int v) = be_enc 4 v.
Proof. intros v H N. unfold opt32. replace (to_int v =? -1) with false by (pose proof (to_int_m1 v H); lia). now rewrite to_int_u32. Qed.
Lemma request_iff : forall file which x o pkt kmin knbits kmax p g f out, is_bytes pkt ->
  gex_request_in (choose_dh file which) x o pkt = QGroup kmin knbits kmax p g f out ->
  pkt = be_enc 4 kmin ++ be_enc 4 knbits ++ be_enc 4 kmax /\ 0 <= kmin < 4294967296 /\ 0 <= knbits < 4294967296 /\ 0 <= kmax < 4294967296 /\
  kmin <= knbits <= kmax /\ 2048 <= kmax /\ kmin <= 8192 /\
  choose_dh file which (Z.max 2048 kmin) (Z.min 8192 (Z.max 2048 knbits)) (Z.min 8192 kmax) = Some (p, g) /\
  put_bn g (put_bn p (Some [])) = Some out /\ dh_gen_key p g (x_need x * 8) (o_exp o) = Some f.
Proof.
  intros file which x o pkt kmin knbits kmax p g f out Hb H. unfold gex_request_in in H.
  destruct (get_int 4 pkt) as [[a r]|] eqn:E1; [|discriminate]. apply get4_iff in E1 as (-> & R1); [|assumption]. apply bytes_app in Hb as (_ & Hb).
  destruct (get_int 4 r) as [[b r']|] eqn:E2; [|discriminate]. apply get4_iff in E2 as (-> & R2); [|assumption]. apply bytes_app in Hb as (_ & Hb).
  destruct (get_int 4 r') as [[c r]|] eqn:E3; [|discriminate]. apply get4_iff in E3 as (-> & R3); [|assumption]. destruct r as [|? r]; [|discriminate]. cbn [is_nil negb] in H. cbv zeta in H.
  unfold DH_GRP_MIN, DH_GRP_MAX in H. destruct ((c <? a) || (b <? a) || (c <? b) || (c <? 2048)) eqn:G; [discriminate|]. unfold answer_moduli in H.
  destruct ((Z.min 8192 c <? Z.max 2048 a) || (Z.min 8192 (Z.max 2048 b) <? Z.max 2048 a) || (Z.min 8192 c <? Z.min 8192 (Z.max 2048 b))) eqn:G2; [discriminate|].
  assert (K : a <= 8192) by lia. rewrite !to_int_small in H by lia.
  destruct (choose_dh file which _ _ _) as [[p' g']|] eqn:C; [|discriminate]. destruct (put_bn g' (put_bn p' (Some []))) as [out'|] eqn:P; [|discriminate]. destruct (dh_gen_key p' g' _ _) as [f'|] eqn:D; [|discriminate].
  injection H as -> -> -> -> -> -> ->. rewrite app_nil_r. splits; auto; lia.
Qed.

Section Exch.
Variable point_ok : curve -> list Z -> bool.
Variable ver : kpub -> list Z -> list Z -> bool.
Variable hash : list Z -> list Z.
Variable mdsz : Z.
Variable verify : key -> list Z -> list Z -> list Z -> bool.
Variable sgn : list Z -> list Z -> option (list Z).
Variable trust : key -> bool.
Notation gex_reply' := (gex_reply point_ok ver hash mdsz verify trust).
Notation gex_init' := (gex_init hash mdsz sgn).

(** What the client and the server hash *)
Definition client_bytes (t : opening) (old : bool) (nbits p g e f : Z) (K : list Z) : list Z :=
  opening_bytes t ++ gex_tail (if old then -1 else 2048) nbits (if old then -1 else 8192) p g e f K.
Definition server_bytes (t : opening) (min nbits max p g e f : Z) (K : list Z) : list Z :=
  opening_bytes t ++ gex_tail (to_int min) (to_int nbits) (to_int max) p g e f K.
Lemma gex_reply_acc : forall x old nbits o p g e pkt u, is_bytes pkt -> 0 <= p -> 0 <= g -> 0 <= e -> gex_reply' x old nbits o p g e pkt = Some u ->
  exists hk k f sig K wf, pkt = enc_string hk ++ wf ++ enc_string sig /\ get_bn (wf ++ enc_string sig) = Some (f, enc_string sig) /\ from_blob point_ok ver hk = Some k /\ verify_host_key trust x k = true /\
    dh_compute_key p (o_exp o) f = Some K /\ zlen (client_bytes (opened x true hk) old nbits p g e f K) <= 134217728 /\ p < mp_top /\ g < mp_top /\ e < mp_top /\ 0 <= f < mp_top /\
    verify k sig (hash (client_bytes (opened x true hk) old nbits p g e f K)) (x_alg x) = true /\
    finish hash mdsz false x k (hash (client_bytes (opened x true hk) old nbits p g e f K)) K = Some u.
Proof.
  intros x old nbits o p g e pkt u Hb Pp Pg Pe H. unfold gex_reply in H. destruct (get_str pkt) as [[hk r]|] eqn:E1; [|discriminate]. destruct (from_blob point_ok ver hk) as [k|] eqn:E2; [|discriminate]. destruct (verify_host_key trust x k) eqn:E3; [|discriminate]. cbn [negb] in H.
  apply get_str_iff in E1 as (-> & L1); [|assumption]. apply bytes_app in Hb as (_ & Hb).
  destruct (get_bn r) as [[f r']|] eqn:E4; [|discriminate]. pose proof (get_bn_iff _ _ _ Hb E4) as (Rf & Hb').
  destruct (get_str r') as [[sig r2]|] eqn:E5; [|discriminate]. apply get_str_iff in E5 as (-> & L3); [|assumption]. destruct r2 as [|? ?]; [|discriminate]. cbn [is_nil negb] in H. rewrite app_nil_r in *.
  destruct (dh_compute_key p (o_exp o) f) as [K|] eqn:E6; [|discriminate]. cbv zeta in H. unfold DH_GRP_MIN, DH_GRP_MAX in H.
  destruct (gex_hash_in _ _ _ _ hk _ nbits _ p g e f K) as [b|] eqn:E7; [|discriminate]. apply gex_hash_iff in E7 as (-> & L4 & ? & ? & ? & ?); [|assumption|assumption|assumption|lia].
  destruct (verify k sig _ _) eqn:E8; [|discriminate]. cbn [negb] in H.
  assert (W : exists wf, r = wf ++ enc_string sig).
  { unfold get_bn in E4. destruct (get_mpint r) as [[v r2]|] eqn:G; [|discriminate]. assert (r2 = enc_string sig) as -> by congruence. apply get_mpint_iff in G as (w & _ & ->); [eauto|assumption]. }
  destruct W as (wf & ->). exists hk, k, f, sig, K, wf. unfold client_bytes. splits; auto; lia.
Qed.
Lemma gex_init_iff : forall x o k min nbits max p g f pkt reply u, is_bytes pkt -> 0 <= p -> 0 <= g -> 0 <= f -> (gex_init' x o k min nbits max p g f pkt = Some (reply, u) <->
  exists e K hk sig, get_bn pkt = Some (e, []) /\ dh_compute_key p (o_exp o) e = Some K /\ to_blob false k = Some hk /\ zlen (server_bytes (opened x false hk) min nbits max p g e f K) <= 134217728 /\
    p < mp_top /\ g < mp_top /\ 0 <= e < mp_top /\ f < mp_top /\
    sgn (hash (server_bytes (opened x false hk) min nbits max p g e f K)) (x_alg x) = Some sig /\ reply = enc_string hk ++ mp f ++ enc_string sig /\ zlen reply <= 134217728 /\
    finish hash mdsz true x k (hash (server_bytes (opened x false hk) min nbits max p g e f K)) K = Some u).
Proof.
  intros x o k min nbits max p g f pkt reply u Hb Pp Pg Pf. unfold gex_init. split.
  - intros H. destruct (get_bn pkt) as [[e r]|] eqn:E1; [|discriminate]. pose proof (get_bn_iff _ _ _ Hb E1) as (Re & _). destruct r as [|? r]; [|discriminate]. cbn [is_nil negb] in H.
    destruct (dh_compute_key p (o_exp o) e) as [K|] eqn:E2; [|discriminate]. destruct (to_blob false k) as [hk|] eqn:E3; [|discriminate].
    destruct (gex_hash_in _ _ _ _ hk _ _ _ p g e f K) as [b|] eqn:E4; [|discriminate]. apply gex_hash_iff in E4 as (-> & L4 & ? & ? & ? & ?); [|assumption|assumption|lia|assumption].
    destruct (sgn _ _) as [sig|] eqn:E5; [|discriminate]. destruct (put_str sig _) as [rep|] eqn:E6; [|discriminate]. destruct (finish hash mdsz true x k _ K) as [u'|] eqn:E7; [|discriminate].
    assert (rep = reply /\ u' = u) as (-> & ->) by (split; congruence). exists e, K, hk, sig. unfold server_bytes.
    apply put_str_fits_m in E6 as (b1 & E6 & -> & L6). apply put_bn_iff in E6 as (b2 & E6 & -> & _); [|assumption]. apply put_str_fits in E6 as (-> & _). cbn [app] in *. repeat rewrite <- app_assoc. repeat rewrite <- app_assoc in L6. splits; auto; lia.
  - intros (e & K & hk & sig & E1 & E2 & E3 & L4 & Lp & Lg & Le & Lf & E5 & -> & L6 & E7). rewrite E1. cbn [is_nil negb]. rewrite E2, E3. unfold server_bytes in *.
    rewrite (proj2 (gex_hash_iff (x_cv x) (x_sv x) (x_peer x) (x_my x) hk (to_int min) (to_int nbits) (to_int max) p g e f K (opening_bytes (opened x false hk) ++ gex_tail (to_int min) (to_int nbits) (to_int max) p g e f K) Pp Pg (proj1 Le) Pf) (conj eq_refl (conj L4 (conj Lp (conj Lg (conj (proj2 Le) Lf)))))).
    rewrite E5.
    assert (P : put_str sig (put_bn f (put_str hk (Some []))) = Some (enc_string hk ++ mp f ++ enc_string sig)).
    { apply put_str_fits_m. exists (enc_string hk ++ mp f). splits; [|now rewrite <- app_assoc|assumption]. apply put_bn_iff; [assumption|]. exists (enc_string hk). splits; [|reflexivity|lens; lia|assumption]. apply put_str_fits. split; [reflexivity|lens; lia]. }
    rewrite P, E7. reflexivity.
Qed.
End Exch.
(** The encoding of a number of at most 8192 bits does not begin like the number 8192. *)
Lemma mp_head : forall p x y, 0 <= p -> zbits p <= 8192 -> mp p ++ x <> be_enc 4 8192 ++ y.
Proof.
  intros p x y Pp B E. unfold mp, enc_string in E. rewrite <- app_assoc in E.
  assert (S : zlen (mpint_body (to_bin p)) <= 1025).
  { unfold mpint_body. pose proof (to_bin_mag p Pp) as M. rewrite strip0_id by (intros r Er; rewrite Er in M; now apply M). assert (zlen (to_bin p) <= 1024) by (rewrite to_bin_len; Z.to_euclidean_division_equations; lia). destruct (msb _); rewrite ?zlen_cons; lia. }
  assert (Q : be_enc 4 (zlen (mpint_body (to_bin p))) = be_enc 4 8192) by (apply (f_equal (firstn 4)) in E; rewrite !firstn_app, !be_enc_length in E; replace (4 - 4)%nat with O in E by lia; rewrite !firstn_all2 in E by (rewrite be_enc_length; lia); cbn [firstn] in E; rewrite !app_nil_r in E; assumption).
  apply (f_equal be_dec) in Q. pose proof (zlen_nonneg _ (mpint_body (to_bin p))). rewrite !be_dec_enc_id in Q by (change (256 ^ Z.of_nat 4) with 4294967296; lia). lia.
Qed.
Lemma be4_split : forall a b x y, 0 <= a < 4294967296 -> 0 <= b < 4294967296 -> be_enc 4 a ++ x = be_enc 4 b ++ y -> a = b /\ x = y.
Proof.
  intros a b x y A B E. pose proof (get_int_enc 4 a x) as G. pose proof (get_int_enc 4 b y) as G'. change (256 ^ Z.of_nat 4) with 4294967296 in *. specialize (G A). specialize (G' B). rewrite E, G' in G. injection G as -> ->. auto.
Qed.
Lemma gex_split : forall t t' nbits p g e f K min n max p' g' e' f' K',
  zlen (client_bytes t false nbits p g e f K) <= 134217728 -> 0 <= nbits < 4294967296 ->
  0 <= p < mp_top -> 0 <= g < mp_top -> 0 <= e < mp_top -> 0 <= f < mp_top ->
  0 <= p' < mp_top -> 0 <= g' < mp_top -> 0 <= e' < mp_top -> 0 <= f' < mp_top ->
  0 <= min <= 8192 -> 0 <= n < 4294967296 -> 0 <= max < 4294967296 -> zbits p' <= 8192 ->
  client_bytes t false nbits p g e f K = server_bytes t' min n max p' g' e' f' K' ->
  t = t' /\ min = 2048 /\ n = nbits /\ max = 8192 /\ p = p' /\ g = g' /\ e = e' /\ f = f' /\ K = K'.
Proof.
  intros t t' nbits p g e f K min n max p' g' e' f' K' L Rn Rp Rg Re Rf Rp' Rg' Re' Rf' Rmin Rnn Rmax Bp E.
  assert (Rmin' : 0 <= min < 4294967296) by (clear -Rmin; lia). assert (Nmin : min <> 4294967295) by (clear -Rmin; lia).
  assert (R2048 : 0 <= 2048 < 4294967296) by (clear; lia). assert (R8192 : 0 <= 8192 < 4294967296) by (clear; lia). unfold client_bytes, server_bytes in *. apply opening_split in E as (<- & E); [|assumption]. split; [reflexivity|].
  unfold gex_tail in E. rewrite (opt32_eq min) in E by assumption. change (opt32 2048) with (be_enc 4 2048) in E. change (opt32 8192) with (be_enc 4 8192) in E. rewrite to_int_u32 in E by assumption.
  replace (u32 nbits) with nbits in E by (symmetry; clear -Rn; unfold u32; apply Z.mod_small; unfold U32; lia).
  apply be4_split in E as (<- & E); [|assumption|assumption]. apply be4_split in E as (<- & E); [|assumption|assumption].
  destruct (Z.eq_dec max 4294967295) as [->|N].
  - exfalso. unfold opt32 in E. change (to_int 4294967295 =? -1) with true in E. cbv iota in E. cbn [app] in E. symmetry in E. apply mp_head in E; [assumption|apply Rp'|assumption].
  - rewrite opt32_eq in E by assumption. apply be4_split in E as (<- & E); [|assumption|assumption].
    apply mp_split in E as (-> & E); [|assumption|assumption]. apply mp_split in E as (-> & E); [|assumption|assumption]. apply mp_split in E as (-> & E); [|assumption|assumption]. apply mp_split in E as (-> & ->); [|assumption|assumption]. splits; auto.
Qed.
