(** Proofs about the sshbuf model. *)
From Verif Require Import Base SshbufModel SshbufSpec.
Ltac Zify.zify_post_hook ::= Z.div_mod_to_equations.

(** The invariant of a sound buffer. *)
Record wf (b : sbuf) : Prop := mkWf {
  wf_alloc : zlen (dat b) = alloc b;
  wf_off : 0 <= off b <= size b;
  wf_size : size b <= alloc b;
  wf_max : alloc b <= max_size b <= SSHBUF_SIZE_MAX;
  wf_ref : 1 <= refcount b <= SSHBUF_REFS_MAX;
  wf_bytes : is_bytes (dat b)
}.

Notation abs := queue_of.

(** Fields no call on the buffer itself may change. *)
Definition same_meta (b b' : sbuf) : Prop :=
  max_size b' = max_size b /\ readonly b' = readonly b /\ refcount b' = refcount b.

Lemma same_meta_refl : forall b, same_meta b b.
Proof. intros. unfold same_meta. auto. Qed.
Lemma same_meta_trans : forall a b c, same_meta a b -> same_meta b c -> same_meta a c.
Proof. unfold same_meta. intuition congruence. Qed.
#[global] Hint Resolve same_meta_refl : core.

Ltac consts := unfold SSHBUF_SIZE_MAX, SSHBUF_REFS_MAX, SSHBUF_SIZE_INIT, SSHBUF_SIZE_INC,
  SSHBUF_PACK_MIN, SSHBUF_MAX_BIGNUM, SIZE_MAX, U64 in *.

Lemma wf_sane : forall b, wf b -> sanity b = true.
Proof. intros b [H1 H2 H3 H4 H5 H6]. unfold sanity. lia. Qed.

Lemma check_sanity_ok : forall b, wf b -> check_sanity b = Ret (ROk tt) b.
Proof. intros b H. unfold check_sanity. now rewrite wf_sane. Qed.

Lemma contents_len : forall b, wf b -> zlen (contents b) = size b - off b.
Proof.
  intros b [H1 H2 H3 H4 H5 H6]. unfold contents.
  rewrite zlen_ztake; [reflexivity|]. rewrite zlen_zdrop by lia. lia.
Qed.

Lemma contents_len_bound : forall b, wf b -> 0 <= zlen (contents b) <= max_size b.
Proof. intros b H. rewrite contents_len by assumption. destruct H. lia. Qed.

Lemma contents_bytes : forall b, wf b -> is_bytes (contents b).
Proof. intros b H. apply is_bytes_ztake, is_bytes_zdrop, wf_bytes, H. Qed.

(** Decomposition of the memory into consumed part, contents, spare part. *)
Lemma wf_split : forall b, wf b ->
  exists pre post, dat b = pre ++ contents b ++ post /\ zlen pre = off b /\
                   zlen post = alloc b - size b.
Proof.
  intros b H. pose proof (contents_len b H) as HL. destruct H as [H1 H2 H3 H4 H5 H6].
  exists (ztake (off b) (dat b)), (zdrop (size b) (dat b)).
  split; [|split].
  - unfold contents. rewrite <- (ztake_zdrop _ (off b) (dat b)) at 1. f_equal.
    rewrite <- (ztake_zdrop _ (size b - off b) (zdrop (off b) (dat b))) at 1. f_equal.
    rewrite zdrop_zdrop by lia. f_equal. lia.
  - apply zlen_ztake. lia.
  - rewrite zlen_zdrop by lia. lia.
Qed.

(** Building the contents of a buffer from such a decomposition. *)
Lemma contents_of_split : forall b pre c post,
  dat b = pre ++ c ++ post -> zlen pre = off b -> zlen c = size b - off b -> contents b = c.
Proof.
  intros b pre c post Hd Hp Hc. unfold contents. rewrite Hd.
  rewrite zdrop_app_exact by lia. rewrite ztake_app_exact by lia. reflexivity.
Qed.

Lemma mem_read_ok : forall pos n b, 0 <= pos -> 0 <= n -> pos + n <= zlen (dat b) ->
  mem_read pos n b = Ret (ROk (ztake n (zdrop pos (dat b)))) b.
Proof.
  intros. unfold mem_read.
  replace ((0 <=? pos) && (0 <=? n) && (pos + n <=? zlen (dat b))) with true by lia. reflexivity.
Qed.
Lemma mem_write_ok : forall pos v b, 0 <= pos -> pos + zlen v <= zlen (dat b) ->
  mem_write pos v b = Ret (ROk tt) (set_dat b (ztake pos (dat b) ++ v ++ zdrop (pos + zlen v) (dat b))).
Proof.
  intros. unfold mem_write.
  replace ((0 <=? pos) && (pos + zlen v <=? zlen (dat b))) with true by lia. reflexivity.
Qed.

Lemma splice_zlen : forall pos (v d : list Z), 0 <= pos -> pos + zlen v <= zlen d ->
  zlen (ztake pos d ++ v ++ zdrop (pos + zlen v) d) = zlen d.
Proof.
  intros pos v d H1 H2. pose proof (zlen_nonneg Z v).
  rewrite !zlen_app, zlen_ztake, zlen_zdrop by lia. lia.
Qed.
Lemma splice_bytes : forall pos (v d : list Z), is_bytes v -> is_bytes d ->
  is_bytes (ztake pos d ++ v ++ zdrop (pos + zlen v) d).
Proof.
  intros. apply is_bytes_app; split; [now apply is_bytes_ztake|].
  apply is_bytes_app; split; [assumption|now apply is_bytes_zdrop].
Qed.

(** sshbuf_ptr / len / avail *)
Lemma ptr_ok : forall b, wf b -> sshbuf_ptr b = Ret (ROk (off b)) b.
Proof. intros. unfold sshbuf_ptr, mbind. now rewrite check_sanity_ok. Qed.
Lemma len_ok : forall b, wf b -> sshbuf_len b = Ret (ROk (zlen (contents b))) b.
Proof.
  intros b H. unfold sshbuf_len, mbind. rewrite check_sanity_ok, contents_len by assumption.
  destruct H. rewrite u64_id by (consts; lia). reflexivity.
Qed.
Lemma avail_ok : forall b, wf b ->
  sshbuf_avail b = Ret (ROk (if shared b then 0 else max_size b - zlen (contents b))) b.
Proof.
  intros b H. unfold sshbuf_avail, mbind. rewrite check_sanity_ok, contents_len by assumption.
  destruct (shared b); [reflexivity|]. destruct H.
  rewrite (u64_id (size b - off b)) by (consts; lia).
  rewrite u64_id by (consts; lia). reflexivity.
Qed.

(** maybe_pack keeps everything visible. *)
Lemma maybe_pack_ok : forall force b, wf b ->
  exists b', maybe_pack force b = Ret (ROk tt) b' /\ wf b' /\ contents b' = contents b /\
    same_meta b b' /\ alloc b' = alloc b /\ size b' <= size b /\
    (shared b = false -> force = true -> off b' = 0).
Proof.
  intros force b H. unfold maybe_pack.
  destruct ((off b =? 0) || shared b) eqn:E.
  { exists b. splits; auto; try lia; intros Hs _; rewrite Hs in E; lia. }
  destruct (force || ((SSHBUF_PACK_MIN <=? off b) && (size b / 2 <=? off b))) eqn:E2.
  2:{ exists b. splits; auto; try lia; intros _ ->; discriminate. }
  pose proof (contents_len b H) as HL.
  destruct (wf_split b H) as (pre & post & Hd & Hp & Hq).
  pose proof H as H'. destruct H' as [H1 H2 H3 H4 H5 H6].
  unfold mbind. rewrite u64_id by (consts; lia).
  rewrite mem_read_ok by (try rewrite H1; lia).
  fold (contents b).
  rewrite mem_write_ok by (rewrite ?HL; lia).
  rewrite ztake_0. cbn [app]. rewrite Z.add_0_l.
  set (nd := contents b ++ zdrop (zlen (contents b)) (dat b)).
  cbn [set_dat set_off set_size dat off size max_size alloc readonly refcount].
  rewrite u64_id by (consts; lia).
  eexists. split; [reflexivity|].
  assert (Hnd : zlen nd = alloc b).
  { unfold nd. rewrite zlen_app, zlen_zdrop by lia. lia. }
  split; [|split; [|split; [|split; [|split]]]].
  - split; cbn; try lia. unfold nd. apply is_bytes_app. split; [now apply contents_bytes|].
    apply is_bytes_zdrop. assumption.
  - eapply (contents_of_split _ [] _ (zdrop (zlen (contents b)) (dat b))); cbn; try reflexivity. lia.
  - unfold same_meta. auto.
  - reflexivity.
  - cbn. lia.
  - reflexivity.
Qed.

(** Reallocation. *)
Lemma recalloc_zlen : forall d n, 0 <= n -> zlen (recalloc d n) = n.
Proof.
  intros d n H. unfold recalloc. rewrite zlen_app, zlen_repeat.
  destruct (Z_le_gt_dec n (zlen d)).
  - rewrite zlen_ztake by lia. lia.
  - rewrite ztake_all by lia. lia.
Qed.
Lemma recalloc_bytes : forall d n, is_bytes d -> is_bytes (recalloc d n).
Proof.
  intros d n H. unfold recalloc. apply is_bytes_app. split; [now apply is_bytes_ztake|].
  apply Forall_forall. intros x Hx. apply repeat_spec in Hx. subst. unfold is_byte. lia.
Qed.
Lemma recalloc_contents : forall b n, wf b -> size b <= n ->
  contents (set_alloc (set_dat b (recalloc (dat b) n)) n) = contents b.
Proof.
  intros b n H Hn. pose proof (contents_len b H) as HL. pose proof H as H'. destruct H' as [H1 H2 H3 H4 H5 H6].
  assert (exists rest, recalloc (dat b) n = ztake (size b) (dat b) ++ rest) as [rest Hr].
  { exists (zdrop (size b) (recalloc (dat b) n)).
    rewrite <- (ztake_zdrop _ (size b) (recalloc (dat b) n)) at 1. f_equal.
    unfold recalloc. rewrite ztake_app_l.
    - apply ztake_ztake. lia.
    - destruct (Z_le_gt_dec n (zlen (dat b))).
      + rewrite zlen_ztake by lia. lia.
      + rewrite ztake_all by lia. lia. }
  destruct (wf_split b H) as (pre & post & Hd & Hp & Hq).
  assert (Ht : ztake (size b) (dat b) = pre ++ contents b).
  { rewrite Hd, app_assoc. apply ztake_app_exact. rewrite zlen_app. lia. }
  eapply contents_of_split with (pre := pre) (post := rest); cbn.
  - rewrite Hr, Ht, <- app_assoc. reflexivity.
  - assumption.
  - assumption.
Qed.
Lemma recalloc_wf : forall b n, wf b -> size b <= n <= max_size b ->
  wf (set_alloc (set_dat b (recalloc (dat b) n)) n).
Proof.
  intros b n [H1 H2 H3 H4 H5 H6] Hn. split; cbn; try lia.
  - apply recalloc_zlen. lia.
  - now apply recalloc_bytes.
Qed.

Lemma roundup_bounds : forall x, 0 <= x <= SSHBUF_SIZE_MAX ->
  x <= roundup x SSHBUF_SIZE_INC < x + 256.
Proof.
  intros x H. unfold roundup. consts. unfold u64, U64. lia.
Qed.

(** check_reserve *)
Lemma check_reserve_ok : forall b n, wf b -> 0 <= n <= SIZE_MAX ->
  sshbuf_check_reserve n b =
  if shared b then Ret (RErr SSH_ERR_BUFFER_READ_ONLY) b
  else if zlen (contents b) + n <=? max_size b then Ret (ROk tt) b
  else Ret (RErr SSH_ERR_NO_BUFFER_SPACE) b.
Proof.
  intros b n H Hn. unfold sshbuf_check_reserve, mbind. rewrite check_sanity_ok by assumption.
  destruct (shared b); [reflexivity|].
  rewrite contents_len by assumption. destruct H.
  rewrite (u64_id (size b - off b)) by (consts; lia).
  destruct (max_size b <? n) eqn:E; cbn [orb].
  - replace (size b - off b + n <=? max_size b) with false by lia. reflexivity.
  - rewrite u64_id by (consts; lia).
    destruct (max_size b - n <? size b - off b) eqn:E2.
    + replace (size b - off b + n <=? max_size b) with false by lia. reflexivity.
    + replace (size b - off b + n <=? max_size b) with true by lia. reflexivity.
Qed.

Definition nospace (b : sbuf) : Z :=
  if shared b then SSH_ERR_BUFFER_READ_ONLY else SSH_ERR_NO_BUFFER_SPACE.

(** allocate: complete description. *)
Lemma allocate_ok : forall aok b n, wf b -> 0 <= n <= SIZE_MAX ->
  (shared b = false /\ zlen (contents b) + n <= max_size b /\
   ((exists b', sshbuf_allocate aok n b = Ret (ROk tt) b' /\ wf b' /\ contents b' = contents b /\
      same_meta b b' /\ size b' + n <= alloc b') \/
    (aok = false /\ exists b', sshbuf_allocate aok n b = Ret (RErr SSH_ERR_ALLOC_FAIL) b' /\ wf b' /\
      contents b' = contents b /\ same_meta b b'))) \/
  ((shared b = true \/ max_size b < zlen (contents b) + n) /\
   sshbuf_allocate aok n b = Ret (RErr (nospace b)) b).
Proof.
  intros aok b n H Hn. unfold sshbuf_allocate, mbind, nospace.
  rewrite check_reserve_ok by assumption.
  destruct (shared b) eqn:Es. { right. split; [left|]; reflexivity. }
  destruct (zlen (contents b) + n <=? max_size b) eqn:Ef.
  2:{ right. split; [right; lia|reflexivity]. }
  left. split; [reflexivity|]. split; [lia|].
  destruct (maybe_pack_ok (max_size b <? u64 (size b + n)) b H) as (b1 & E1 & W1 & C1 & S1 & A1 & Z1 & F1).
  rewrite E1.
  pose proof (contents_len b H) as HL. pose proof (contents_len b1 W1) as HL1.
  pose proof S1 as S1'. destruct S1' as (Sm & Sr & Sf).
  assert (Hfit : size b1 + n <= max_size b1).
  { destruct (max_size b <? u64 (size b + n)) eqn:Eb.
    - specialize (F1 Es eq_refl). rewrite C1 in HL1. lia.
    - destruct H. rewrite u64_id in Eb by (consts; lia). lia. }
  pose proof W1 as W1'. destruct W1' as [w1 w2 w3 w4 w5 w6].
  rewrite (u64_id (n + size b1)) by (consts; lia).
  destruct (n + size b1 <=? alloc b1) eqn:Ea.
  { left. exists b1. splits; auto. lia. }
  assert (Hs1 : shared b1 = false) by (unfold shared in *; rewrite Sr, Sf; assumption).
  rewrite (u64_id (n + size b1 - alloc b1)) by (consts; lia).
  rewrite (u64_id (alloc b1 + (n + size b1 - alloc b1))) by (consts; lia).
  replace (alloc b1 + (n + size b1 - alloc b1)) with (n + size b1) by lia.
  pose proof (roundup_bounds (n + size b1) ltac:(consts; lia)) as Hr.
  set (rlen := if max_size b1 <? roundup (n + size b1) SSHBUF_SIZE_INC then n + size b1
               else roundup (n + size b1) SSHBUF_SIZE_INC) in *.
  assert (Hrl : n + size b1 <= rlen <= max_size b1).
  { unfold rlen. destruct (max_size b1 <? roundup (n + size b1) SSHBUF_SIZE_INC) eqn:?; lia. }
  destruct aok; cbn [negb].
  - left. assert (W2 : wf (set_alloc (set_dat b1 (recalloc (dat b1) rlen)) rlen)) by (apply recalloc_wf; [assumption|lia]).
    rewrite check_reserve_ok by assumption.
    rewrite recalloc_contents by (try assumption; lia).
    change (shared (set_alloc (set_dat b1 (recalloc (dat b1) rlen)) rlen)) with (shared b1). rewrite Hs1.
    cbn [set_alloc set_dat max_size]. rewrite C1, Sm.
    rewrite Ef. eexists. split; [reflexivity|]. split; [exact W2|].
    split; [rewrite recalloc_contents by (try assumption; lia); assumption|].
    split; [unfold same_meta; auto|]. cbn. lia.
  - right. split; [reflexivity|]. exists b1. splits; auto.
Qed.

(** reserve then fill with v: the pattern of every put. *)
Lemma reserve_ok : forall aok b n, wf b -> 0 <= n <= SIZE_MAX ->
  (shared b = false /\ zlen (contents b) + n <= max_size b /\
   ((exists b' p, sshbuf_reserve aok n b = Ret (ROk p) b' /\ wf b' /\ same_meta b b' /\
      p = size b' - n /\ off b' <= p /\ p + n <= zlen (dat b') /\
      ztake (zlen (contents b)) (contents b') = contents b /\
      zlen (contents b') = zlen (contents b) + n) \/
    (aok = false /\ exists b', sshbuf_reserve aok n b = Ret (RErr SSH_ERR_ALLOC_FAIL) b' /\ wf b' /\
      contents b' = contents b /\ same_meta b b'))) \/
  ((shared b = true \/ max_size b < zlen (contents b) + n) /\
   sshbuf_reserve aok n b = Ret (RErr (nospace b)) b).
Proof.
  intros aok b n H Hn. unfold sshbuf_reserve, mbind.
  destruct (allocate_ok aok b n H Hn) as [(Hs & Hfit & [(b1 & E & W & C & S & A)|(Ha & b1 & E & W & C & S)])|(Hx & E)];
    rewrite E.
  - left. split; [assumption|]. split; [assumption|]. left.
    pose proof (contents_len b1 W) as HL1. pose proof (wf_split b1 W) as (pre & post & Hd & Hp & Hq).
    pose proof W as W'. destruct W' as [w1 w2 w3 w4 w5 w6].
    rewrite u64_id by (consts; lia).
    exists (set_size b1 (size b1 + n)), (size b1). split; [reflexivity|].
    assert (W2 : wf (set_size b1 (size b1 + n))) by (split; cbn; try assumption; lia).
    split; [assumption|]. split; [assumption|].
    cbn [set_size size off dat]. split; [lia|]. split; [lia|]. split; [lia|].
    pose proof (contents_len _ W2) as HL2. cbn [set_size size off] in HL2.
    split; [|rewrite <- C; lia].
    rewrite <- C. unfold contents at 2. cbn [set_size size off dat].
    rewrite ztake_ztake by lia. rewrite HL1. reflexivity.
  - left. split; [assumption|]. split; [assumption|]. right. split; [assumption|].
    exists b1. splits; auto.
  - right. auto.
Qed.

Lemma fill_ok : forall b v, wf b -> is_bytes v -> zlen v <= size b - off b ->
  exists b', mem_write (size b - zlen v) v b = Ret (ROk tt) b' /\ wf b' /\ same_meta b b' /\
    contents b' = ztake (zlen (contents b) - zlen v) (contents b) ++ v /\ size b' = size b /\ off b' = off b.
Proof.
  intros b v H Hv Hl. pose proof (contents_len b H) as HL. pose proof (zlen_nonneg Z v).
  destruct (wf_split b H) as (pre & post & Hd & Hp & Hq).
  pose proof H as H'. destruct H' as [w1 w2 w3 w4 w5 w6].
  rewrite mem_write_ok by lia.
  set (nd := ztake (size b - zlen v) (dat b) ++ v ++ zdrop (size b - zlen v + zlen v) (dat b)).
  exists (set_dat b nd). split; [reflexivity|].
  assert (Hz : zlen nd = alloc b) by (unfold nd; rewrite splice_zlen by lia; assumption).
  split; [split; cbn; try assumption; unfold nd; now apply splice_bytes|].
  split; [unfold same_meta; auto|]. split; [|split; reflexivity].
  eapply contents_of_split with (pre := pre) (post := post); cbn; auto.
  - unfold nd. rewrite Hd, (app_assoc pre).
    rewrite (ztake_app_l _ _ (pre ++ contents b)) by (rewrite zlen_app; lia).
    rewrite ztake_app_r by lia.
    replace (size b - zlen v - zlen pre) with (zlen (contents b) - zlen v) by lia.
    rewrite zdrop_app_exact by (rewrite zlen_app; lia).
    rewrite <- !app_assoc. reflexivity.
  - rewrite zlen_app, zlen_ztake by lia. lia.
Qed.

(** put, described completely *)
Definition appended_b (aok : bool) (v : list Z) (b : sbuf) (o : out unit) : Prop :=
  (shared b = false /\ zlen (contents b) + zlen v <= max_size b /\
   ((exists b', o = Ret (ROk tt) b' /\ wf b' /\ same_meta b b' /\ contents b' = contents b ++ v) \/
    (aok = false /\ exists b', o = Ret (RErr SSH_ERR_ALLOC_FAIL) b' /\ wf b' /\ same_meta b b' /\
       contents b' = contents b))) \/
  ((shared b = true \/ max_size b < zlen (contents b) + zlen v) /\
   exists e, (e = SSH_ERR_NO_BUFFER_SPACE \/ shared b = true /\ e = SSH_ERR_BUFFER_READ_ONLY) /\
   o = Ret (RErr e) b).

Lemma nospace_cases : forall b, nospace b = SSH_ERR_NO_BUFFER_SPACE \/
  shared b = true /\ nospace b = SSH_ERR_BUFFER_READ_ONLY.
Proof. intros b. unfold nospace. destruct (shared b); auto. Qed.

(** Anything that reserves |v| bytes and then stores v into exactly that space. *)
Lemma reserve_fill : forall aok b v (k : Z -> M unit), wf b -> is_bytes v -> zlen v <= SIZE_MAX ->
  (forall b1, wf b1 -> shared b1 = false -> zlen v <= size b1 - off b1 ->
     exists b2, k (size b1 - zlen v) b1 = Ret (ROk tt) b2 /\ wf b2 /\ same_meta b1 b2 /\
      contents b2 = ztake (zlen (contents b1) - zlen v) (contents b1) ++ v) ->
  appended_b aok v b ((do p <- sshbuf_reserve aok (zlen v) ;; k p) b).
Proof.
  intros aok b v k H Hv Hl Hk. unfold mbind, appended_b. pose proof (zlen_nonneg Z v).
  destruct (reserve_ok aok b (zlen v) H ltac:(lia)) as
    [(Hs & Hfit & [(b1 & p & E & W & S & Hp & Ho & Hd & Ht & HL)|(Ha & b1 & E & W & C & S)])|(Hx & E)]; rewrite E.
  - left. split; [assumption|]. split; [assumption|]. left. subst p.
    assert (Hs1 : shared b1 = false) by (destruct S as (?&Sr&Sf); unfold shared in *; rewrite Sr, Sf; assumption).
    pose proof (contents_len b1 W).
    destruct (Hk b1 W Hs1 ltac:(lia)) as (b2 & E2 & W2 & S2 & C2). rewrite E2. exists b2.
    split; [reflexivity|]. split; [assumption|].
    split. { eapply same_meta_trans; eassumption. }
    rewrite C2. replace (zlen (contents b1) - zlen v) with (zlen (contents b)) by lia. now rewrite Ht.
  - left. split; [assumption|]. split; [assumption|]. right. split; [assumption|].
    exists b1. auto.
  - right. split; [assumption|]. exists (nospace b). split; [apply nospace_cases|reflexivity].
Qed.

Lemma put_ok : forall aok b v, wf b -> is_bytes v -> zlen v <= SIZE_MAX ->
  appended_b aok v b (sshbuf_put aok v b).
Proof.
  intros aok b v H Hv Hl. unfold sshbuf_put.
  apply (reserve_fill aok b v (fun p => if zlen v =? 0 then mret tt else mem_write p v)); auto.
  intros b1 W Hs1 Hs. destruct (zlen v =? 0) eqn:E.
  - assert (v = []) by (apply zlen_zero_nil; lia). subst v. exists b1. unfold mret. splits; auto.
    rewrite zlen_nil, app_nil_r, Z.sub_0_r, ztake_all by lia. reflexivity.
  - destruct (fill_ok b1 v W Hv Hs) as (b2 & E2 & W2 & S2 & C2 & _). exists b2. auto.
Qed.

Lemma put_int_ok : forall aok b w val, wf b -> (w = 1%nat \/ w = 2%nat \/ w = 4%nat \/ w = 8%nat) ->
  appended_b aok (be_enc w val) b (sshbuf_put_int aok w val b).
Proof.
  intros aok b w val H Hw. unfold sshbuf_put_int. rewrite <- (zlen_be_enc w val).
  apply (reserve_fill aok b (be_enc w val) (fun p => mem_write p (be_enc w val))); auto.
  - apply be_enc_bytes.
  - rewrite zlen_be_enc. consts. lia.
  - intros b1 W Hs1 Hs. destruct (fill_ok b1 (be_enc w val) W (be_enc_bytes _ _) Hs) as (b2 & E2 & W2 & S2 & C2 & _).
    exists b2. auto.
Qed.

(** Overwriting inside the contents. *)
Lemma write_inside : forall b i v, wf b -> is_bytes v -> 0 <= i -> i + zlen v <= zlen (contents b) ->
  exists b', mem_write (off b + i) v b = Ret (ROk tt) b' /\ wf b' /\ same_meta b b' /\
    size b' = size b /\ off b' = off b /\
    contents b' = ztake i (contents b) ++ v ++ zdrop (i + zlen v) (contents b).
Proof.
  intros b i v H Hv Hi Hl. pose proof (contents_len b H) as HL. pose proof (zlen_nonneg Z v).
  destruct (wf_split b H) as (pre & post & Hd & Hp & Hq).
  pose proof H as H'. destruct H' as [w1 w2 w3 w4 w5 w6].
  rewrite mem_write_ok by lia.
  set (nd := ztake (off b + i) (dat b) ++ v ++ zdrop (off b + i + zlen v) (dat b)).
  exists (set_dat b nd). split; [reflexivity|].
  assert (Hz : zlen nd = alloc b) by (unfold nd; rewrite splice_zlen by lia; assumption).
  split; [split; cbn; try assumption; unfold nd; now apply splice_bytes|].
  split; [unfold same_meta; auto|]. split; [reflexivity|]. split; [reflexivity|].
  eapply contents_of_split with (pre := pre) (post := post); cbn; auto.
  - unfold nd. rewrite Hd. rewrite ztake_app_r by lia.
    replace (off b + i - zlen pre) with i by lia.
    rewrite ztake_app_l by lia.
    rewrite zdrop_app_r by lia. replace (off b + i + zlen v - zlen pre) with (i + zlen v) by lia.
    rewrite zdrop_app_l by lia. rewrite <- !app_assoc. reflexivity.
  - rewrite !zlen_app, zlen_ztake, zlen_zdrop by lia. lia.
Qed.

(** Two consecutive stores filling the tail. *)
Lemma fill2_ok : forall b u v, wf b -> is_bytes u -> is_bytes v -> zlen u + zlen v <= size b - off b ->
  exists b1 b', mem_write (size b - (zlen u + zlen v)) u b = Ret (ROk tt) b1 /\
    mem_write (size b - (zlen u + zlen v) + zlen u) v b1 = Ret (ROk tt) b' /\
    wf b1 /\ wf b' /\ same_meta b b' /\ size b1 = size b /\ off b1 = off b /\
    contents b1 = ztake (zlen (contents b) - (zlen u + zlen v)) (contents b) ++ u ++
                  zdrop (zlen (contents b) - zlen v) (contents b) /\
    contents b' = ztake (zlen (contents b) - (zlen u + zlen v)) (contents b) ++ u ++ v.
Proof.
  intros b u v H Hu Hv Hl. pose proof (contents_len b H) as HL.
  pose proof (zlen_nonneg Z u). pose proof (zlen_nonneg Z v).
  destruct (write_inside b (zlen (contents b) - (zlen u + zlen v)) u H Hu ltac:(lia) ltac:(lia))
    as (b1 & E1 & W1 & S1 & Z1 & O1 & C1).
  replace (off b + (zlen (contents b) - (zlen u + zlen v))) with (size b - (zlen u + zlen v)) in E1 by lia.
  replace (zlen (contents b) - (zlen u + zlen v) + zlen u) with (zlen (contents b) - zlen v) in C1 by lia.
  destruct (fill_ok b1 v W1 Hv ltac:(lia)) as (b2 & E2 & W2 & S2 & C2 & Z2 & O2).
  exists b1, b2. split; [assumption|].
  split. { rewrite <- E2. f_equal. lia. }
  split; [assumption|]. split; [assumption|].
  split. { eapply same_meta_trans; eassumption. }
  split; [assumption|]. split; [assumption|]. split; [assumption|].
  pose proof (contents_len b1 W1) as HL1.
  rewrite C2. rewrite C1 at 2.
  rewrite app_assoc.
  set (P := ztake (zlen (contents b) - (zlen u + zlen v)) (contents b) ++ u) in *.
  assert (zlen P = zlen (contents b1) - zlen v).
  { unfold P. rewrite zlen_app, zlen_ztake by lia. lia. }
  rewrite ztake_app_exact by lia. unfold P. rewrite <- app_assoc. reflexivity.
Qed.

Lemma put_string_ok : forall aok b v, wf b -> is_bytes v -> zlen v <= SIZE_MAX ->
  appended_b aok (enc_string v) b (sshbuf_put_string aok v b).
Proof.
  intros aok b v H Hv Hl. unfold sshbuf_put_string. pose proof (zlen_nonneg Z v).
  assert (HE : zlen (enc_string v) = zlen v + 4) by (unfold enc_string; rewrite zlen_app, zlen_be_enc; lia).
  destruct (SSHBUF_SIZE_MAX - 4 <? zlen v) eqn:E.
  { right. split.
    - right. rewrite HE. pose proof (contents_len_bound b H). destruct H. lia.
    - exists SSH_ERR_NO_BUFFER_SPACE. split; [auto|reflexivity]. }
  rewrite u64_id by (consts; lia). rewrite <- HE.
  apply (reserve_fill aok b (enc_string v)
    (fun d => run mem_write d (be_enc 4 (zlen v)) ;; if zlen v =? 0 then mret tt else mem_write (d + 4) v)); auto.
  - apply is_bytes_app. split; [apply be_enc_bytes|assumption].
  - rewrite HE. consts; lia.
  - intros b1 W Hs1 Hs. unfold mbind. rewrite HE in *.
    destruct (fill2_ok b1 (be_enc 4 (zlen v)) v W (be_enc_bytes _ _) Hv ltac:(rewrite zlen_be_enc; lia))
      as (b2 & b3 & E2 & E3 & W2 & W3 & S3 & Z2 & O2 & C2 & C3).
    rewrite zlen_be_enc in *. replace (Z.of_nat 4 + zlen v) with (zlen v + 4) in * by lia.
    rewrite E2. destruct (zlen v =? 0) eqn:E0.
    + exists b2. assert (v = []) by (apply zlen_zero_nil; lia). subst v. rewrite zlen_nil in *.
      unfold mret. split; [reflexivity|]. split; [assumption|].
      rewrite mem_write_ok in E3; [|destruct W2; lia|destruct W2; rewrite zlen_nil; lia].
      split. { inversion E3; subst. exact S3. }
      rewrite C2. unfold enc_string. rewrite zlen_nil, Z.sub_0_r.
      rewrite (zdrop_all _ (zlen (contents b1))) by lia. reflexivity.
    + exists b3. change (Z.of_nat 4) with 4 in E3. split; [assumption|]. split; [assumption|].
      split; [assumption|]. rewrite C3. reflexivity.
Qed.

(** Consecutive stores are one store. *)
Lemma mem_write_app : forall p u v b, 0 <= p -> p + zlen u + zlen v <= zlen (dat b) ->
  (run mem_write p u ;; mem_write (p + zlen u) v) b = mem_write p (u ++ v) b.
Proof.
  intros p u v b Hp Hl. pose proof (zlen_nonneg Z u). pose proof (zlen_nonneg Z v).
  unfold mbind. rewrite mem_write_ok by lia. rewrite mem_write_ok.
  2: lia.
  2:{ cbn [set_dat dat]. rewrite splice_zlen by lia. lia. }
  rewrite mem_write_ok by (rewrite ?zlen_app; lia).
  f_equal. unfold set_dat. cbn [dat off size max_size alloc readonly refcount]. f_equal.
  rewrite (app_assoc (ztake p (dat b))).
  rewrite ztake_app_exact by (rewrite zlen_app, zlen_ztake by lia; lia).
  rewrite zdrop_app_r by (rewrite zlen_app, zlen_ztake by lia; lia).
  rewrite zdrop_zdrop by (rewrite ?zlen_app, ?zlen_ztake; lia).
  rewrite <- !app_assoc. do 3 f_equal. f_equal.
  rewrite !zlen_app, zlen_ztake by lia. lia.
Qed.
Lemma mem_write_nil : forall p b, 0 <= p <= zlen (dat b) -> mem_write p [] b = Ret (ROk tt) b.
Proof.
  intros p b H. rewrite mem_write_ok by (rewrite ?zlen_nil; lia). rewrite zlen_nil, Z.add_0_r.
  cbn [app]. rewrite ztake_zdrop. destruct b; reflexivity.
Qed.

Lemma strip0_len : forall v, zlen (strip0 v) <= zlen v.
Proof.
  induction v as [|a v IH]; cbn [strip0]; [lia|].
  destruct (a =? 0); rewrite ?zlen_cons in *; lia.
Qed.
Lemma strip0_bytes : forall v, is_bytes v -> is_bytes (strip0 v).
Proof.
  induction v as [|a v IH]; cbn [strip0]; intros H; [constructor|].
  inversion H; subst. destruct (a =? 0); [now apply IH|assumption].
Qed.
Lemma mpint_body_bytes : forall v, is_bytes v -> is_bytes (mpint_body v).
Proof.
  intros v H. unfold mpint_body. pose proof (strip0_bytes v H).
  destruct (msb (strip0 v)); [constructor; [unfold is_byte; lia|]|]; assumption.
Qed.
Lemma mpint_body_len : forall v,
  zlen (mpint_body v) = zlen (strip0 v) + (if msb (strip0 v) then 1 else 0).
Proof. intros. unfold mpint_body. destruct (msb (strip0 v)); rewrite ?zlen_cons; lia. Qed.

Lemma put_bignum_ok : forall aok b v, wf b -> is_bytes v ->
  if SSHBUF_SIZE_MAX - 5 <? zlen v
  then sshbuf_put_bignum2_bytes aok v b = Ret (RErr SSH_ERR_NO_BUFFER_SPACE) b
  else appended_b aok (enc_mpint v) b (sshbuf_put_bignum2_bytes aok v b).
Proof.
  intros aok b v H Hv. unfold sshbuf_put_bignum2_bytes.
  destruct (SSHBUF_SIZE_MAX - 5 <? zlen v) eqn:E; [reflexivity|].
  pose proof (strip0_len v) as Hs. pose proof (strip0_bytes v Hv) as Hsb.
  pose proof (zlen_nonneg Z (strip0 v)) as Hs0.
  set (s := strip0 v) in *.
  set (pr := if msb s then 1 else 0).
  assert (Hpr : 0 <= pr <= 1) by (unfold pr; destruct (msb s); lia).
  assert (HB : zlen (mpint_body v) = zlen s + pr) by apply mpint_body_len.
  assert (HE : zlen (enc_mpint v) = zlen s + 4 + pr).
  { unfold enc_mpint, enc_string. rewrite zlen_app, zlen_be_enc, HB. lia. }
  rewrite u64_id by (consts; lia). rewrite <- HE.
  apply (reserve_fill aok b (enc_mpint v)
    (fun d => run mem_write d (be_enc 4 (zlen s + pr)) ;;
              run (if msb s then mem_write (d + 4) [0] else mret tt) ;;
              if zlen s =? 0 then mret tt else mem_write (d + 4 + pr) s)); auto.
  - apply is_bytes_app. split; [apply be_enc_bytes|now apply mpint_body_bytes].
  - rewrite HE. consts. lia.
  - intros b1 W Hs1 Hsz. rewrite HE in *.
    pose proof W as W'. destruct W' as [w1 w2 w3 w4 w5 w6].
    set (d := size b1 - (zlen s + 4 + pr)) in *.
    assert (Hd : 0 <= d) by (unfold d; lia).
    destruct (fill_ok b1 (enc_mpint v) W) as (b2 & E2 & W2 & S2 & C2 & Z2 & O2).
    { apply is_bytes_app. split; [apply be_enc_bytes|now apply mpint_body_bytes]. }
    { lia. }
    rewrite HE in E2, C2. fold d in E2.
    exists b2. split; [|auto]. rewrite <- E2.
    unfold enc_mpint, enc_string. rewrite HB.
    rewrite <- mem_write_app; [|lia|rewrite zlen_be_enc, HB; lia].
    unfold mbind. rewrite mem_write_ok by (rewrite ?zlen_be_enc; lia).
    set (b1' := set_dat b1 _).
    assert (Hb1' : zlen (dat b1') = zlen (dat b1)).
    { unfold b1'. cbn [set_dat dat]. apply splice_zlen; rewrite ?zlen_be_enc; lia. }
    rewrite zlen_be_enc. change (Z.of_nat 4) with 4.
    unfold mpint_body. fold s. unfold pr. destruct (msb s) eqn:Em.
    + assert (s <> []) by (intros ->; discriminate).
      assert (pr = 1) by (unfold pr; now rewrite ?Em).
      destruct (zlen s =? 0) eqn:E0. { exfalso. apply H0. apply zlen_zero_nil. lia. }
      pose proof (mem_write_app (d + 4) [0] s b1' ltac:(lia)) as Ha.
      change (zlen [0]) with 1 in Ha. rewrite Hb1' in Ha. specialize (Ha ltac:(lia)).
      unfold mbind in Ha. exact Ha.
    + assert (pr = 0) by (unfold pr; now rewrite ?Em).
      unfold mret. destruct (zlen s =? 0) eqn:E0.
      * assert (s = []) by (apply zlen_zero_nil; lia). rewrite H1.
        rewrite mem_write_nil; [reflexivity|]. lia.
      * now rewrite Z.add_0_r.
Qed.

Lemma consume_ok : forall b n, wf b -> 0 <= n ->
  if n <=? zlen (contents b)
  then exists b', sshbuf_consume n b = Ret (ROk tt) b' /\ wf b' /\ same_meta b b' /\ dat b' = dat b /\
         contents b' = zdrop n (contents b)
  else sshbuf_consume n b = Ret (RErr SSH_ERR_MESSAGE_INCOMPLETE) b.
Proof.
  intros b n H Hn. pose proof (contents_len b H) as HL.
  unfold sshbuf_consume, mbind. rewrite check_sanity_ok by assumption.
  destruct (n =? 0) eqn:E0.
  { replace (n <=? zlen (contents b)) with true by (destruct H; lia).
    exists b. assert (n = 0) by lia. subst n. unfold mret. splits; auto. }
  rewrite len_ok by assumption.
  destruct (n <=? zlen (contents b)) eqn:El.
  2:{ replace (zlen (contents b) <? n) with true by lia. reflexivity. }
  replace (zlen (contents b) <? n) with false by lia.
  destruct (wf_split b H) as (pre & post & Hd & Hp & Hq).
  pose proof H as H'. destruct H' as [w1 w2 w3 w4 w5 w6].
  rewrite u64_id by (consts; lia). cbn [set_off off size].
  eexists. split; [reflexivity|].
  destruct (off b + n =? size b) eqn:Ee.
  - split. { split; cbn; auto; lia. }
    split; [unfold same_meta; cbn; auto|]. split; [reflexivity|].
    rewrite zdrop_all by lia. unfold contents. cbn. reflexivity.
  - split. { split; cbn; auto; lia. }
    split; [unfold same_meta; cbn; auto|]. split; [reflexivity|].
    unfold contents. cbn [set_off off size dat].
    replace (off b + n) with (n + off b) by lia. rewrite <- zdrop_zdrop by lia.
    replace (size b - off b) with ((size b - (n + off b)) + n) by lia.
    rewrite ztake_zdrop_comm by lia. reflexivity.
Qed.

Lemma consume_end_ok : forall b n, wf b -> 0 <= n ->
  if n <=? zlen (contents b)
  then exists b', sshbuf_consume_end n b = Ret (ROk tt) b' /\ wf b' /\ same_meta b b' /\
         contents b' = ztake (zlen (contents b) - n) (contents b)
  else sshbuf_consume_end n b = Ret (RErr SSH_ERR_MESSAGE_INCOMPLETE) b.
Proof.
  intros b n H Hn. pose proof (contents_len b H) as HL.
  unfold sshbuf_consume_end, mbind. rewrite check_sanity_ok by assumption.
  destruct (n =? 0) eqn:E0.
  { replace (n <=? zlen (contents b)) with true by (destruct H; lia).
    exists b. assert (n = 0) by lia. subst n. unfold mret. splits; auto.
    rewrite ztake_all by lia. reflexivity. }
  rewrite len_ok by assumption.
  destruct (n <=? zlen (contents b)) eqn:El.
  2:{ replace (zlen (contents b) <? n) with true by lia. reflexivity. }
  replace (zlen (contents b) <? n) with false by lia.
  pose proof H as H'. destruct H' as [w1 w2 w3 w4 w5 w6].
  rewrite u64_id by (consts; lia).
  eexists. split; [reflexivity|].
  split. { split; cbn; auto; lia. }
  split; [unfold same_meta; cbn; auto|].
  unfold contents at 1. cbn [set_size off size dat]. unfold contents at 2.
  rewrite HL. rewrite ztake_ztake by lia. f_equal. lia.
Qed.

Lemma read_inside : forall b i n, wf b -> 0 <= i -> 0 <= n -> i + n <= zlen (contents b) ->
  mem_read (off b + i) n b = Ret (ROk (ztake n (zdrop i (contents b)))) b /\
  ztake n (zdrop (off b + i) (dat b)) = ztake n (zdrop i (contents b)).
Proof.
  intros b i n H Hi Hn Hl. pose proof (contents_len b H) as HL.
  assert (Hq : ztake n (zdrop (off b + i) (dat b)) = ztake n (zdrop i (contents b))).
  { destruct (wf_split b H) as (pre & post & Hd & Hp & _). rewrite Hd at 1.
    rewrite zdrop_app_r by lia. replace (off b + i - zlen pre) with i by lia.
    rewrite zdrop_app_l by lia. rewrite ztake_app_l; [reflexivity|].
    rewrite zlen_zdrop by lia. lia. }
  split; [|assumption]. rewrite mem_read_ok by (destruct H; lia). now rewrite Hq.
Qed.

Lemma get_ok : forall b n, wf b -> 0 <= n ->
  if n <=? zlen (contents b)
  then exists b', sshbuf_get n b = Ret (ROk (ztake n (contents b))) b' /\ wf b' /\ same_meta b b' /\
         contents b' = zdrop n (contents b)
  else sshbuf_get n b = Ret (RErr SSH_ERR_MESSAGE_INCOMPLETE) b.
Proof.
  intros b n H Hn. pose proof (consume_ok b n H Hn) as Hc.
  unfold sshbuf_get, mbind. rewrite ptr_ok by assumption.
  destruct (n <=? zlen (contents b)) eqn:El.
  - destruct Hc as (b' & E & W & S & D & C). rewrite E. exists b'.
    destruct (n =? 0) eqn:E0.
    + assert (n = 0) by lia. subst. unfold mret. rewrite ztake_0. auto.
    + destruct (read_inside b 0 n H ltac:(lia) Hn ltac:(lia)) as [_ R].
      rewrite Z.add_0_r in R. rewrite mem_read_ok by (rewrite ?D; destruct H; pose proof (contents_len b ltac:(constructor; assumption)); lia).
      rewrite D, R, zdrop_0. auto.
  - now rewrite Hc.
Qed.

Lemma get_int_ok : forall b w, wf b ->
  if Z.of_nat w <=? zlen (contents b)
  then exists b', sshbuf_get_int w b = Ret (ROk (be_dec (ztake (Z.of_nat w) (contents b)))) b' /\ wf b' /\
         same_meta b b' /\ contents b' = zdrop (Z.of_nat w) (contents b)
  else sshbuf_get_int w b = Ret (RErr SSH_ERR_MESSAGE_INCOMPLETE) b.
Proof.
  intros b w H. pose proof (consume_ok b (Z.of_nat w) H ltac:(lia)) as Hc.
  unfold sshbuf_get_int, mbind. rewrite ptr_ok by assumption.
  destruct (Z.of_nat w <=? zlen (contents b)) eqn:El.
  - destruct Hc as (b' & E & W & S & D & C). rewrite E. exists b'.
    destruct (read_inside b 0 (Z.of_nat w) H ltac:(lia) ltac:(lia) ltac:(lia)) as [_ R].
    rewrite Z.add_0_r in R. pose proof (contents_len b H).
    rewrite mem_read_ok by (rewrite ?D; destruct H; lia).
    rewrite D, R, zdrop_0. unfold mret. auto.
  - now rewrite Hc.
Qed.

Lemma check_offset_ok : forall b wr i n, wf b -> 0 <= i <= SIZE_MAX -> 0 <= n <= SIZE_MAX ->
  if i + n <=? zlen (contents b) then check_offset wr i n b = Ret (ROk tt) b
  else exists e, check_offset wr i n b = Ret (RErr e) b.
Proof.
  intros b wr i n H Hi Hn. pose proof (contents_len_bound b H) as HB.
  unfold check_offset, mbind. rewrite ptr_ok by assumption.
  rewrite (u64_id (SIZE_MAX - n)) by (consts; lia).
  destruct H as [w1 w2 w3 w4 w5 w6]. assert (H : wf b) by (constructor; assumption).
  destruct (SIZE_MAX - n <=? i) eqn:E1.
  - replace (i + n <=? zlen (contents b)) with false by (consts; lia). eexists; reflexivity.
  - rewrite len_ok by assumption. rewrite u64_id by (consts; lia).
    destruct (i + n <=? zlen (contents b)) eqn:E2.
    + replace (zlen (contents b) <? i + n) with false by lia. reflexivity.
    + replace (zlen (contents b) <? i + n) with true by lia. eexists; reflexivity.
Qed.

Lemma peek_int_ok : forall b w i, wf b -> 0 <= i <= SIZE_MAX -> Z.of_nat w <= SIZE_MAX ->
  if i + Z.of_nat w <=? zlen (contents b)
  then sshbuf_peek_int w i b = Ret (ROk (be_dec (ztake (Z.of_nat w) (zdrop i (contents b))))) b
  else exists e, sshbuf_peek_int w i b = Ret (RErr e) b.
Proof.
  intros b w i H Hi Hw. pose proof (check_offset_ok b false i (Z.of_nat w) H Hi ltac:(lia)) as Hc.
  unfold sshbuf_peek_int, mbind.
  destruct (i + Z.of_nat w <=? zlen (contents b)) eqn:E.
  - rewrite Hc, ptr_ok by assumption.
    destruct (read_inside b i (Z.of_nat w) H ltac:(lia) ltac:(lia) ltac:(lia)) as [R _].
    rewrite R. reflexivity.
  - destruct Hc as [e Hc]. rewrite Hc. eexists; reflexivity.
Qed.

Lemma poke_ok : forall b i v, wf b -> is_bytes v -> 0 <= i <= SIZE_MAX -> zlen v <= SIZE_MAX ->
  if negb (shared b) && (i + zlen v <=? zlen (contents b))
  then exists b', sshbuf_poke i v b = Ret (ROk tt) b' /\ wf b' /\ same_meta b b' /\
         contents b' = ztake i (contents b) ++ v ++ zdrop (i + zlen v) (contents b)
  else exists e, sshbuf_poke i v b = Ret (RErr e) b.
Proof.
  intros b i v H Hv Hi Hl. pose proof (zlen_nonneg Z v).
  pose proof (check_offset_ok b true i (zlen v) H Hi ltac:(lia)) as Hc.
  unfold sshbuf_poke, mbind.
  destruct (i + zlen v <=? zlen (contents b)) eqn:E.
  - rewrite Hc. rewrite check_sanity_ok by assumption. destruct (shared b); cbn [negb andb].
    + eexists; reflexivity.
    + destruct (write_inside b i v H Hv ltac:(lia) ltac:(lia)) as (b' & E1 & W & S & _ & _ & C).
      exists b'. auto.
  - rewrite andb_false_r. destruct Hc as [e Hc]. rewrite Hc. eexists; reflexivity.
Qed.

Lemma dec4_bound : forall l, is_bytes l -> 4 <= zlen l -> 0 <= be_dec (ztake 4 l) < 4294967296.
Proof.
  intros l H Hl. pose proof (be_dec_bound (ztake 4 l) (is_bytes_ztake 4 l H)) as Hb.
  rewrite zlen_ztake in Hb by lia. change (256 ^ 4) with 4294967296 in Hb. exact Hb.
Qed.

(** peek_string_direct against the list-level decoder *)
Lemma peek_string_ok : forall b, wf b ->
  match dec_string (contents b) with
  | RErr e => sshbuf_peek_string_direct b = Ret (RErr e) b
  | ROk (v, rest) =>
      sshbuf_peek_string_direct b = Ret (ROk (off b + 4, zlen v)) b /\
      contents b = ztake 4 (contents b) ++ v ++ rest /\ 4 + zlen v <= zlen (contents b) /\
      v = ztake (zlen v) (zdrop 4 (contents b)) /\ rest = zdrop (zlen v + 4) (contents b)
  end.
Proof.
  intros b H. unfold dec_string, sshbuf_peek_string_direct, mbind.
  pose proof (contents_len_bound b H) as HB. pose proof (contents_bytes b H) as HBy.
  rewrite ptr_ok, len_ok by assumption.
  destruct (zlen (contents b) <? 4) eqn:E4; [reflexivity|].
  destruct (read_inside b 0 4 H ltac:(lia) ltac:(lia) ltac:(lia)) as [R _].
  rewrite Z.add_0_r, zdrop_0 in R. rewrite R.
  pose proof (dec4_bound (contents b) HBy ltac:(lia)) as Hd.
  set (n := be_dec (ztake 4 (contents b))) in *.
  destruct (SSHBUF_SIZE_MAX - 4 <? n) eqn:En; [reflexivity|].
  rewrite len_ok by assumption.
  assert (Hz : zlen (zdrop 4 (contents b)) = zlen (contents b) - 4) by (apply zlen_zdrop; lia).
  rewrite Hz. rewrite u64_id by (destruct H; consts; lia).
  destruct (zlen (contents b) - 4 <? n) eqn:El; [reflexivity|].
  assert (Hv : zlen (ztake n (zdrop 4 (contents b))) = n) by (apply zlen_ztake; lia).
  rewrite Hv. unfold mret. splits; auto.
  - rewrite ztake_zdrop, ztake_zdrop. reflexivity.
  - lia.
  - rewrite zdrop_zdrop by lia. reflexivity.
Qed.

Lemma get_string_direct_ok : forall b, wf b ->
  match dec_string (contents b) with
  | RErr e => sshbuf_get_string_direct b = Ret (RErr e) b
  | ROk (v, rest) => exists b',
      sshbuf_get_string_direct b = Ret (ROk (off b + 4, zlen v)) b' /\ wf b' /\ same_meta b b' /\
      dat b' = dat b /\ contents b' = rest
  end.
Proof.
  intros b H. pose proof (peek_string_ok b H) as Hp. unfold sshbuf_get_string_direct, mbind.
  pose proof (contents_len_bound b H) as HB.
  destruct (dec_string (contents b)) as [[v rest]|e].
  - destruct Hp as (E & Hsp & Hl & Hv & Hr). rewrite E. cbn [snd fst].
    pose proof (zlen_nonneg Z v). rewrite u64_id by (destruct H; consts; lia).
    pose proof (consume_ok b (zlen v + 4) H ltac:(lia)) as Hc.
    replace (zlen v + 4 <=? zlen (contents b)) with true in Hc by lia.
    destruct Hc as (b' & E' & W & S & D & C). rewrite E'. exists b'. splits; auto. congruence.
  - now rewrite Hp.
Qed.

Lemma read_body : forall b b' n, wf b -> dat b' = dat b -> 0 <= n -> 4 + n <= zlen (contents b) ->
  mem_read (off b + 4) n b' = Ret (ROk (ztake n (zdrop 4 (contents b)))) b'.
Proof.
  intros b b' n H D Hn Hl. pose proof (contents_len b H).
  rewrite mem_read_ok by (rewrite ?D; destruct H; lia).
  rewrite D. destruct (read_inside b 4 n H ltac:(lia) Hn ltac:(lia)) as [_ R]. now rewrite R.
Qed.

Lemma get_string_ok : forall aok b, wf b ->
  match dec_string (contents b) with
  | RErr e => sshbuf_get_string aok b = Ret (RErr e) b
  | ROk (v, rest) => exists b',
      sshbuf_get_string aok b = Ret (if aok then ROk v else RErr SSH_ERR_ALLOC_FAIL) b' /\ wf b' /\
      same_meta b b' /\ contents b' = rest
  end.
Proof.
  intros aok b H. pose proof (get_string_direct_ok b H) as Hd. pose proof (peek_string_ok b H) as Hp.
  unfold sshbuf_get_string, mbind.
  destruct (dec_string (contents b)) as [[v rest]|e]; [|now rewrite Hd].
  destruct Hd as (b' & E & W & S & D & C). destruct Hp as (_ & Hsp & Hl & Hv & Hr).
  rewrite E. exists b'. cbn [fst snd]. destruct aok; cbn [negb]; [|auto].
  pose proof (zlen_nonneg Z v).
  destruct (zlen v =? 0) eqn:E0.
  - assert (v = []) by (apply zlen_zero_nil; lia). subst v. auto.
  - rewrite (read_body b b' (zlen v)) by (auto; lia). rewrite <- Hv. auto.
Qed.

Lemma get_cstring_ok : forall aok b, wf b ->
  match dec_cstring (contents b) with
  | RErr e => sshbuf_get_cstring aok b = Ret (RErr e) b
  | ROk (v, rest) => exists b',
      sshbuf_get_cstring aok b = Ret (if aok then ROk v else RErr SSH_ERR_ALLOC_FAIL) b' /\ wf b' /\
      same_meta b b' /\ contents b' = rest
  end.
Proof.
  intros aok b H. pose proof (get_string_direct_ok b H) as Hd. pose proof (peek_string_ok b H) as Hp.
  unfold sshbuf_get_cstring, dec_cstring, mbind.
  destruct (dec_string (contents b)) as [[v rest]|e]; [|now rewrite Hp].
  destruct Hd as (b' & E & W & S & D & C). destruct Hp as (Ep & Hsp & Hl & Hv & Hr).
  rewrite Ep. cbn [fst snd]. pose proof (zlen_nonneg Z v).
  assert (HR : (if 0 <? zlen v then mem_read (off b + 4) (zlen v) else mret []) b = Ret (ROk v) b).
  { destruct (0 <? zlen v) eqn:E0.
    - rewrite (read_body b b (zlen v)) by (auto; lia). now rewrite <- Hv.
    - assert (v = []) by (apply zlen_zero_nil; lia). now subst v. }
  rewrite HR. unfold nul_ok.
  assert (HN : match find_nul v with Some z => z <? zlen v - 1 | None => false end =
          negb match find_nul v with Some z => zlen v - 1 <=? z | None => true end).
  { destruct (find_nul v); [|reflexivity]. lia. }
  rewrite HN. destruct (match find_nul v with Some z => zlen v - 1 <=? z | None => true end); cbn [negb].
  - rewrite E. exists b'. destruct aok; cbn [negb]; unfold mret, merr; auto.
  - reflexivity.
Qed.

Lemma get_bignum_ok : forall b, wf b ->
  match dec_mpint (contents b) with
  | RErr e => sshbuf_get_bignum2_bytes_direct b = Ret (RErr e) b
  | ROk (v, rest) => exists b',
      sshbuf_get_bignum2_bytes_direct b = Ret (ROk v) b' /\ wf b' /\ same_meta b b' /\ contents b' = rest
  end.
Proof.
  intros b H. pose proof (peek_string_ok b H) as Hp. pose proof (contents_len_bound b H) as HB.
  unfold sshbuf_get_bignum2_bytes_direct, dec_mpint, mbind.
  destruct (dec_string (contents b)) as [[v rest]|e]; [|now rewrite Hp].
  destruct Hp as (Ep & Hsp & Hl & Hv & Hr). rewrite Ep. cbn [fst snd]. pose proof (zlen_nonneg Z v).
  assert (HR : (if zlen v =? 0 then mret [] else mem_read (off b + 4) (zlen v)) b = Ret (ROk v) b).
  { destruct (zlen v =? 0) eqn:E0.
    - assert (v = []) by (apply zlen_zero_nil; lia). now subst v.
    - rewrite (read_body b b (zlen v)) by (auto; lia). now rewrite <- Hv. }
  rewrite HR. destruct (msb v); [reflexivity|].
  destruct ((SSHBUF_MAX_BIGNUM + 1 <? zlen v) || ((zlen v =? SSHBUF_MAX_BIGNUM + 1) && negb (hd 0 v =? 0))); [reflexivity|].
  rewrite u64_id by (destruct H; consts; lia).
  pose proof (consume_ok b (zlen v + 4) H ltac:(lia)) as Hc.
  replace (zlen v + 4 <=? zlen (contents b)) with true in Hc by lia.
  destruct Hc as (b' & E' & W & S & D & C). rewrite E'. exists b'. splits; auto. congruence.
Qed.

Lemma putf_ok : forall aok b v, wf b -> is_bytes v -> zlen v <= 2147483646 ->
  if zlen v =? 0 then sshbuf_putf aok v b = Ret (ROk tt) b
  else if negb (shared b) && (zlen (contents b) + zlen v + 1 <=? max_size b) then
    (exists b', sshbuf_putf aok v b = Ret (ROk tt) b' /\ wf b' /\ same_meta b b' /\ contents b' = contents b ++ v) \/
    (aok = false /\ exists b', sshbuf_putf aok v b = Ret (RErr SSH_ERR_ALLOC_FAIL) b' /\ wf b' /\ same_meta b b' /\
       contents b' = contents b)
  else exists e, sshbuf_putf aok v b = Ret (RErr e) b.
Proof.
  intros aok b v H Hv Hl. unfold sshbuf_putf. pose proof (zlen_nonneg Z v).
  destruct (zlen v =? 0) eqn:E0; [reflexivity|].
  assert (HE : zlen (v ++ [0]) = zlen v + 1) by (rewrite zlen_app; reflexivity).
  assert (Hb0 : is_bytes (v ++ [0])).
  { apply is_bytes_app. split; [assumption|]. constructor; [unfold is_byte; lia|constructor]. }
  set (body := run sshbuf_reserve aok (zlen v + 1) ;; mret tt).
  assert (HA : appended_b aok (v ++ [0]) b
    ((do p <- sshbuf_reserve aok (zlen (v ++ [0])) ;; mem_write p (v ++ [0])) b)).
  { apply (reserve_fill aok b (v ++ [0]) (fun p => mem_write p (v ++ [0]))); auto.
    - rewrite HE. consts. lia.
    - intros b1 W Hs1 Hs. destruct (fill_ok b1 (v ++ [0]) W Hb0 Hs) as (b2 & E2 & W2 & S2 & C2 & _).
      exists b2. auto. }
  rewrite HE in HA. unfold appended_b in HA. rewrite HE in HA.
  unfold mbind in *. clear body.
  destruct HA as [(Hs & Hfit & [(b1 & E & W & S & C)|(Ha & b1 & E & W & S & C)])|(Hx & e & He & E)].
  - rewrite Hs. cbn [negb andb].
    replace (zlen (contents b) + zlen v + 1 <=? max_size b) with true by lia. left.
    destruct (sshbuf_reserve aok (zlen v + 1) b) as [[p|e] b0|f]; try discriminate.
    rewrite E. pose proof (consume_end_ok b1 1 W ltac:(lia)) as Hc.
    assert (HC1 : zlen (contents b1) = zlen (contents b) + zlen v + 1) by (rewrite C, zlen_app; lia).
    pose proof (zlen_nonneg Z (contents b)).
    replace (1 <=? zlen (contents b1)) with true in Hc by lia.
    destruct Hc as (b2 & E2 & W2 & S2 & C2). rewrite E2. exists b2. splits; auto.
    + eapply same_meta_trans; eassumption.
    + rewrite C2, C, app_assoc. apply ztake_app_exact. rewrite <- app_assoc, <- C. rewrite zlen_app. lia.
  - rewrite Hs. cbn [negb andb].
    replace (zlen (contents b) + zlen v + 1 <=? max_size b) with true by lia. right.
    split; [assumption|].
    destruct (sshbuf_reserve aok (zlen v + 1) b) as [[p|e] b0|f]; try discriminate.
    + exfalso. unfold mem_write in E. destruct ((0 <=? p) && _); discriminate.
    + inversion E; subst. exists b1. auto.
  - replace (negb (shared b) && (zlen (contents b) + zlen v + 1 <=? max_size b)) with false.
    2:{ destruct (shared b) eqn:Es; [reflexivity|]. destruct Hx as [Hx|Hx]; [discriminate|]. cbn. lia. }
    destruct (sshbuf_reserve aok (zlen v + 1) b) as [[p|e'] b0|f]; try discriminate.
    + exfalso. unfold mem_write in E. destruct ((0 <=? p) && _); discriminate.
    + inversion E; subst. exists e. reflexivity.
Qed.

(** reset: fine unless a smaller limit is in force. *)
Ltac fcbn := cbn [dat off size max_size alloc readonly refcount set_dat set_off set_size set_alloc set_max fst snd negb andb orb].
Lemma reset_ok : forall aok b, wf b -> (SSHBUF_SIZE_INIT <= max_size b \/ shared b = true) ->
  exists b', sshbuf_reset aok b = Ret (ROk tt) b' /\ wf b' /\ same_meta b b' /\ contents b' = [].
Proof.
  intros aok b H Hm. unfold sshbuf_reset.
  pose proof H as H'. destruct H' as [w1 w2 w3 w4 w5 w6].
  destruct (shared b) eqn:Es.
  { eexists. split; [reflexivity|]. split. { split; fcbn; auto; lia. }
    split; [unfold same_meta; fcbn; auto|]. unfold contents. fcbn. now rewrite Z.sub_diag. }
  destruct Hm as [Hm|Hm]; [|discriminate].
  rewrite wf_sane by assumption. cbn [negb].
  set (b2 := if _ && aok then _ else _).
  assert (W2 : wf b2 /\ same_meta b b2 /\ size b2 = 0 /\ off b2 = 0).
  { unfold b2. cbn [set_size set_off set_alloc set_dat alloc dat].
    destruct (negb (alloc b =? SSHBUF_SIZE_INIT) && aok).
    - splits; fcbn; auto; [|unfold same_meta; fcbn; auto].
      split; fcbn; auto; try lia.
      + apply recalloc_zlen. consts; lia.
      + consts; lia.
      + now apply recalloc_bytes.
    - splits; fcbn; auto; [|unfold same_meta; fcbn; auto].
      split; fcbn; auto; lia. }
  destruct W2 as (W2 & S2 & Z2 & O2). pose proof W2 as W2'. destruct W2' as [v1 v2 v3 v4 v5 v6].
  assert (HR : zlen (repeat 0 (Z.to_nat (alloc b2))) = alloc b2) by (rewrite zlen_repeat; lia).
  rewrite mem_write_ok by (rewrite ?HR; lia).
  eexists. split; [reflexivity|]. rewrite HR, Z.add_0_l, ztake_0.
  rewrite zdrop_all by lia. rewrite app_nil_r. cbn [app]. 
  split. { split; fcbn; auto. apply Forall_forall. intros x Hx. apply repeat_spec in Hx. subst. unfold is_byte. lia. }
  split; [destruct S2 as (?&?&?); unfold same_meta; fcbn; auto|].
  unfold contents. fcbn. now rewrite Z2, O2.
Qed.

Lemma set_max_ok : forall aok b m, wf b -> 0 <= m <= SIZE_MAX ->
  (exists b', sshbuf_set_max_size aok m b = Ret (ROk tt) b' /\ wf b' /\ contents b' = contents b /\
     max_size b' = m /\ readonly b' = readonly b /\ refcount b' = refcount b) \/
  (exists e b', sshbuf_set_max_size aok m b = Ret (RErr e) b' /\ wf b' /\ contents b' = contents b /\
     same_meta b b').
Proof.
  intros aok b m H Hm. unfold sshbuf_set_max_size, mbind. rewrite check_sanity_ok by assumption.
  destruct (m =? max_size b) eqn:E1.
  { left. exists b. splits; auto. lia. }
  destruct (shared b) eqn:Es. { right. exists SSH_ERR_BUFFER_READ_ONLY, b. auto. }
  destruct (SSHBUF_SIZE_MAX <? m) eqn:E2. { right. exists SSH_ERR_NO_BUFFER_SPACE, b. auto. }
  destruct (maybe_pack_ok (m <? size b) b H) as (b1 & Ep & W & C & S & A & Z & F).
  rewrite Ep.
  pose proof W as W'. destruct W' as [w1 w2 w3 w4 w5 w6]. pose proof S as S'. destruct S' as (Sm & Sr & Sf).
  destruct ((m <? alloc b1) && (size b1 <? m)) eqn:E3.
  - set (rlen := if m <? (if size b1 <? SSHBUF_SIZE_INIT then SSHBUF_SIZE_INIT else roundup (size b1) SSHBUF_SIZE_INC)
                 then m else if size b1 <? SSHBUF_SIZE_INIT then SSHBUF_SIZE_INIT else roundup (size b1) SSHBUF_SIZE_INC).
    assert (Hr : size b1 <= rlen <= m).
    { pose proof (roundup_bounds (size b1) ltac:(consts; lia)). unfold rlen.
      destruct (size b1 <? SSHBUF_SIZE_INIT) eqn:?; match goal with |- context [if m <? ?x then _ else _] => destruct (m <? x) eqn:? end; lia. }
    destruct aok; cbn [negb].
    + cbn [set_alloc set_dat alloc]. replace (m <? rlen) with false by lia. left.
      eexists. split; [reflexivity|].
      split.
      { split; fcbn; auto; try lia.
        - apply recalloc_zlen. lia.
        - now apply recalloc_bytes. }
      split; [|fcbn; auto].
      transitivity (contents (set_alloc (set_dat b1 (recalloc (dat b1) rlen)) rlen)); [reflexivity|].
      rewrite recalloc_contents by (auto; lia). assumption.
    + right. eexists _, b1. split; [reflexivity|]. auto.
  - destruct (m <? alloc b1) eqn:E4.
    + right. eexists _, b1. split; [reflexivity|]. auto.
    + left. eexists. split; [reflexivity|].
      split. { split; fcbn; auto; lia. }
      split; [|fcbn; auto]. rewrite <- C. reflexivity.
Qed.

(** ** One call *)

Lemma wf_new : wf sshbuf_new.
Proof.
  split; cbn [sshbuf_new dat off size max_size alloc readonly refcount]; try (rewrite zlen_repeat); try (consts; lia).
  apply Forall_forall. intros x Hx. apply repeat_spec in Hx. subst. unfold is_byte. lia.
Qed.
Lemma abs_new : abs sshbuf_new = mkQ [] SSHBUF_SIZE_MAX true.
Proof. reflexivity. Qed.

Lemma shared_meta : forall b b', same_meta b b' -> shared b' = shared b.
Proof. intros b b' (?&Hr&Hf). unfold shared. now rewrite Hr, Hf. Qed.

Lemma abs_meta : forall b b', same_meta b b' -> contents b' = contents b -> abs b' = abs b.
Proof.
  intros b b' S C. unfold abs. rewrite C, (shared_meta b b' S). destruct S as (->&_). reflexivity.
Qed.
Lemma abs_withq : forall b b' l, same_meta b b' -> contents b' = l -> abs b' = with_q (abs b) l.
Proof.
  intros b b' l S C. unfold abs, with_q. cbn. rewrite C, (shared_meta b b' S). destruct S as (->&_). reflexivity.
Qed.

Lemma appended_step : forall aok v b (o : out unit), wf b ->
  appended_b aok v b o ->
  exists r b', mmap (fun _ => VUnit) (fun _ => o) b = Ret r b' /\ wf b' /\ max_size b' = max_size b /\
    appended aok v (abs b) r (abs b').
Proof.
  intros aok v b o H HA. unfold appended_b in HA. unfold mmap, mbind, appended.
  cbn [queue_of qwritable q qmax].
  destruct HA as [(Hs & Hfit & [(b1 & E & W & S & C)|(Ha & b1 & E & W & S & C)])|(Hx & e & He & E)]; subst o.
  - rewrite Hs. cbn [negb andb]. replace (zlen (contents b) + zlen v <=? max_size b) with true by lia.
    unfold mret. eexists _, _. split; [reflexivity|]. split; [assumption|]. split; [apply S|].
    left. split; [reflexivity|]. now apply abs_withq.
  - rewrite Hs. cbn [negb andb]. replace (zlen (contents b) + zlen v <=? max_size b) with true by lia.
    eexists _, _. split; [reflexivity|]. split; [assumption|]. split; [apply S|].
    right. splits; auto. now apply abs_meta.
  - replace (negb (shared b) && (zlen (contents b) + zlen v <=? max_size b)) with false.
    2:{ destruct (shared b) eqn:Es; [reflexivity|]. destruct Hx as [Hx|Hx]; [discriminate|]. cbn. lia. }
    eexists _, _. split; [reflexivity|]. split; [assumption|]. split; [reflexivity|].
    split; [|reflexivity]. destruct He as [->|[Hsh ->]]; [auto|]. rewrite Hsh. auto.
Qed.

(** A call that may break the buffer: reset under a small limit. *)
Definition reset_safe (o : op) (b : sbuf) : Prop :=
  match o with
  | OReset _ => SSHBUF_SIZE_INIT <= max_size b \/ shared b = true
  | _ => True
  end.

Lemma step_ok : forall o b, wf b -> op_ok o -> reset_safe o b ->
  exists r b', do_op o b = Ret r b' /\ wf b' /\ qstep o (abs b) r (abs b').
Proof.
  intros o b H Ho Hr. pose proof (contents_len_bound b H) as HB.
  destruct o; cbn [do_op op_ok reset_safe qstep] in *.
  - (* put *) destruct Ho as [Hv Hl].
    destruct (appended_step _ _ _ _ H (put_ok aok b v H Hv Hl)) as (r & b' & E & W & _ & Q).
    unfold mmap, mbind in *. eauto.
  - (* reserve *) unfold mmap, mbind.
    destruct (reserve_ok aok b n H Ho) as
      [(Hs & Hfit & [(b1 & p & E & W & S & Hp & Hof & Hd & Ht & HL)|(Ha & b1 & E & W & C & S)])|(Hx & E)]; rewrite E.
    + exists (ROk VUnit), b1. split; [reflexivity|]. split; [assumption|].
      exists (zdrop (zlen (contents b)) (contents b1)).
      split; [rewrite zlen_zdrop by lia; lia|].
      unfold appended. cbn [queue_of q qmax qwritable]. rewrite Hs. cbn [negb andb].
      rewrite zlen_zdrop by lia.
      replace (zlen (contents b) + (zlen (contents b1) - zlen (contents b)) <=? max_size b) with true by lia.
      left. split; [reflexivity|]. apply abs_withq; [assumption|].
      rewrite <- Ht at 1. now rewrite ztake_zdrop.
    + exists (RErr SSH_ERR_ALLOC_FAIL), b1. split; [reflexivity|]. split; [assumption|].
      exists (repeat 0 (Z.to_nat n)). split; [rewrite zlen_repeat; lia|].
      unfold appended. cbn [queue_of q qmax qwritable]. rewrite Hs. cbn [negb andb].
      rewrite zlen_repeat.
      replace (zlen (contents b) + Z.of_nat (Z.to_nat n) <=? max_size b) with true by lia.
      right. splits; auto. now apply abs_meta.
    + exists (RErr (nospace b)), b. split; [reflexivity|]. split; [assumption|].
      exists (repeat 0 (Z.to_nat n)). split; [rewrite zlen_repeat; lia|].
      unfold appended. cbn [queue_of q qmax qwritable]. rewrite zlen_repeat.
      replace (negb (shared b) && (zlen (contents b) + Z.of_nat (Z.to_nat n) <=? max_size b)) with false.
      2:{ destruct (shared b) eqn:Es; [reflexivity|]. destruct Hx as [Hx|Hx]; [discriminate|]. cbn. lia. }
      split; [|reflexivity]. unfold nospace. destruct (shared b); cbn; auto.
  - (* putf *) destruct Ho as [Hv Hl]. pose proof (putf_ok aok b s H Hv Hl) as HP. unfold mmap, mbind.
    cbn [queue_of q qmax qwritable]. pose proof (zlen_nonneg Z s).
    destruct (zlen s =? 0) eqn:E0.
    { rewrite HP. eexists _, _. split; [reflexivity|]. auto. }
    destruct (negb (shared b) && (zlen (contents b) + zlen s + 1 <=? max_size b)) eqn:Ef.
    + assert (Hf : negb (shared b) && (zlen (contents b) + zlen s <=? max_size b) = true).
      { apply andb_true_iff in Ef. destruct Ef as [-> Ef]. cbn. lia. }
      unfold appended. cbn [queue_of q qmax qwritable]. rewrite Hf.
      destruct HP as [(b' & E & W & S & C)|(Ha & b' & E & W & S & C)]; rewrite E.
      * unfold mret. eexists _, _. split; [reflexivity|]. split; [assumption|]. left. split; [reflexivity|].
        now apply abs_withq.
      * eexists _, _. split; [reflexivity|]. split; [assumption|]. right. splits; auto. now apply abs_meta.
    + destruct HP as [e E]. rewrite E. eexists _, _. split; [reflexivity|]. split; [assumption|].
      split; [eexists; reflexivity|reflexivity].
  - (* put_int *)
    destruct (appended_step _ _ _ _ H (put_int_ok aok b w val H Ho)) as (r & b' & E & W & _ & Q).
    unfold mmap, mbind in *. eauto.
  - (* put_string *) destruct Ho as [Hv Hl].
    destruct (appended_step _ _ _ _ H (put_string_ok aok b v H Hv Hl)) as (r & b' & E & W & _ & Q).
    unfold mmap, mbind in *. eauto.
  - (* put_bignum *) destruct Ho as [Hv Hl]. pose proof (put_bignum_ok aok b v H Hv) as HP.
    destruct (SSHBUF_SIZE_MAX - 5 <? zlen v) eqn:E5.
    + unfold mmap, mbind. rewrite HP. eexists _, _. split; [reflexivity|]. auto.
    + destruct (appended_step _ _ _ _ H HP) as (r & b' & E & W & _ & Q).
      unfold mmap, mbind in *. eauto.
  - (* poke *) destruct Ho as (Hv & Hi & Hl). pose proof (poke_ok b offset v H Hv Hi Hl) as HP.
    unfold mmap, mbind. cbn [queue_of q qmax qwritable].
    destruct (negb (shared b) && (offset + zlen v <=? zlen (contents b))).
    + destruct HP as (b' & E & W & S & C). rewrite E. unfold mret. eexists _, _. split; [reflexivity|].
      split; [assumption|]. split; [reflexivity|]. now apply abs_withq.
    + destruct HP as [e E]. rewrite E. eexists _, _. split; [reflexivity|]. split; [assumption|].
      split; [eexists; reflexivity|reflexivity].
  - (* get *) pose proof (get_ok b n H ltac:(lia)) as HP. unfold mmap, mbind. cbn [queue_of q].
    destruct (n <=? zlen (contents b)).
    + destruct HP as (b' & E & W & S & C). rewrite E. unfold mret. eexists _, _. split; [reflexivity|].
      split; [assumption|]. split; [reflexivity|]. now apply abs_withq.
    + rewrite HP. eexists _, _. split; [reflexivity|]. auto.
  - (* get_int *) pose proof (get_int_ok b w H) as HP. unfold mmap, mbind. cbn [queue_of q].
    destruct (Z.of_nat w <=? zlen (contents b)).
    + destruct HP as (b' & E & W & S & C). rewrite E. unfold mret. eexists _, _. split; [reflexivity|].
      split; [assumption|]. split; [reflexivity|]. now apply abs_withq.
    + rewrite HP. eexists _, _. split; [reflexivity|]. auto.
  - (* peek_int *) destruct Ho as [Hw Hi].
    pose proof (peek_int_ok b w offset H Hi ltac:(consts; lia)) as HP. unfold mmap, mbind. cbn [queue_of q].
    destruct (offset + Z.of_nat w <=? zlen (contents b)).
    + rewrite HP. unfold mret. eexists _, _. split; [reflexivity|]. auto.
    + destruct HP as [e HP]. rewrite HP. eexists _, _. split; [reflexivity|]. split; [assumption|].
      split; [reflexivity|]. eexists; reflexivity.
  - (* get_string *) pose proof (get_string_ok aok b H) as HP. unfold mmap, mbind, decoded. cbn [queue_of q].
    destruct (dec_string (contents b)) as [[v rest]|e].
    + destruct HP as (b' & E & W & S & C). rewrite E. destruct aok; unfold mret;
      (eexists _, _; split; [reflexivity|]; split; [assumption|]; split; [reflexivity|]; now apply abs_withq).
    + rewrite HP. eexists _, _. split; [reflexivity|]. auto.
  - (* get_cstring *) pose proof (get_cstring_ok aok b H) as HP. unfold mmap, mbind, decoded. cbn [queue_of q].
    destruct (dec_cstring (contents b)) as [[v rest]|e].
    + destruct HP as (b' & E & W & S & C). rewrite E. destruct aok; unfold mret;
      (eexists _, _; split; [reflexivity|]; split; [assumption|]; split; [reflexivity|]; now apply abs_withq).
    + rewrite HP. eexists _, _. split; [reflexivity|]. auto.
  - (* get_bignum *) pose proof (get_bignum_ok b H) as HP. unfold mmap, mbind, decoded. cbn [queue_of q].
    destruct (dec_mpint (contents b)) as [[v rest]|e].
    + destruct HP as (b' & E & W & S & C). rewrite E. unfold mret.
      eexists _, _; split; [reflexivity|]; split; [assumption|]; split; [reflexivity|]; now apply abs_withq.
    + rewrite HP. eexists _, _. split; [reflexivity|]. auto.
  - (* consume *) pose proof (consume_ok b n H ltac:(lia)) as HP. unfold mmap, mbind. cbn [queue_of q].
    destruct (n <=? zlen (contents b)).
    + destruct HP as (b' & E & W & S & D & C). rewrite E. unfold mret. eexists _, _. split; [reflexivity|].
      split; [assumption|]. split; [reflexivity|]. now apply abs_withq.
    + rewrite HP. eexists _, _. split; [reflexivity|]. auto.
  - (* consume_end *) pose proof (consume_end_ok b n H ltac:(lia)) as HP. unfold mmap, mbind. cbn [queue_of q].
    destruct (n <=? zlen (contents b)).
    + destruct HP as (b' & E & W & S & C). rewrite E. unfold mret. eexists _, _. split; [reflexivity|].
      split; [assumption|]. split; [reflexivity|]. now apply abs_withq.
    + rewrite HP. eexists _, _. split; [reflexivity|]. auto.
  - (* reset *) destruct (reset_ok aok b H Hr) as (b' & E & W & S & C). unfold mmap, mbind. rewrite E.
    unfold mret. eexists _, _. split; [reflexivity|]. split; [assumption|]. split; [reflexivity|].
    now apply abs_withq.
  - (* set_max *) unfold mmap, mbind.
    destruct (set_max_ok aok b m H Ho) as [(b' & E & W & C & Hmx & Sr & Sf)|(e & b' & E & W & C & S)]; rewrite E.
    + unfold mret. eexists _, _. split; [reflexivity|]. split; [assumption|]. left. split; [reflexivity|].
      split. { cbn [queue_of q]. rewrite <- C. pose proof (contents_len_bound b' W). destruct W. lia. }
      unfold abs, with_max. cbn. rewrite C, Hmx. unfold shared. now rewrite Sr, Sf.
    + eexists _, _. split; [reflexivity|]. split; [assumption|]. right.
      split; [eexists; reflexivity|]. now apply abs_meta.
  - (* len *) unfold mmap, mbind. rewrite len_ok by assumption. unfold mret.
    eexists _, _. split; [reflexivity|]. auto.
  - (* avail *) unfold mmap, mbind. rewrite avail_ok by assumption. unfold mret.
    eexists _, _. split; [reflexivity|]. split; [assumption|]. split; [|reflexivity].
    cbn [queue_of q qmax qwritable]. destruct (shared b); reflexivity.
  - (* check_reserve *) unfold mmap, mbind. rewrite check_reserve_ok by assumption.
    cbn [queue_of q qmax qwritable]. destruct (shared b); cbn [negb andb].
    + eexists _, _. split; [reflexivity|]. split; [assumption|]. split; [reflexivity|]. eexists; reflexivity.
    + destruct (zlen (contents b) + n <=? max_size b).
      * unfold mret. eexists _, _. split; [reflexivity|]. auto.
      * eexists _, _. split; [reflexivity|]. split; [assumption|]. split; [reflexivity|]. eexists; reflexivity.
Qed.

(** ** Histories *)

Lemma step_meta : forall o b r b', qstep o (abs b) r (abs b') ->
  shared b' = shared b /\
  max_size b' = match o, r with OSetMax _ m, ROk _ => m | _, _ => max_size b end.
Proof.
  intros o b r b' Q. split.
  - assert (HH : qwritable (abs b') = qwritable (abs b)).
    { assert (HA : forall aok v, appended aok v (abs b) r (abs b') -> qwritable (abs b') = qwritable (abs b)).
      { intros aok v HA. unfold appended in HA. destruct (_ && _).
        - destruct HA as [[_ ->]|(_ & _ & ->)]; reflexivity.
        - destruct HA as [_ ->]; reflexivity. }
      assert (HD : forall aok d, decoded aok d (abs b) r (abs b') -> qwritable (abs b') = qwritable (abs b)).
      { intros aok d HD. unfold decoded in HD. destruct d as [[v rest]|e].
        - destruct aok; destruct HD as [_ ->]; reflexivity.
        - destruct HD as [_ ->]; reflexivity. }
      destruct o; cbn [qstep] in Q.
      all: try (apply HA in Q; assumption); try (apply HD in Q; assumption).
      all: try (destruct Q as (j & _ & Q); apply HA in Q; assumption).
      all: try (destruct Q as [_ ->]; reflexivity).
      all: repeat match type of Q with context [if ?c then _ else _] => destruct c end.
      all: try (apply HA in Q; assumption).
      all: try (destruct Q as [_ ->]; reflexivity).
      all: try (destruct Q as [-> _]; reflexivity).
      all: try (destruct Q as [(_ & _ & ->)|(_ & ->)]; reflexivity). }
    cbn in HH. destruct (shared b'), (shared b); auto; discriminate.
  - assert (HH : qmax (abs b') = match o, r with OSetMax _ m, ROk _ => m | _, _ => max_size b end).
    { assert (Hq : qmax (abs b) = max_size b) by reflexivity.
      assert (HA : forall aok v, appended aok v (abs b) r (abs b') -> qmax (abs b') = max_size b).
      { intros aok v HA. unfold appended in HA. destruct (_ && _).
        - destruct HA as [[_ ->]|(_ & _ & ->)]; reflexivity.
        - destruct HA as [_ ->]; reflexivity. }
      assert (HD : forall aok d, decoded aok d (abs b) r (abs b') -> qmax (abs b') = max_size b).
      { intros aok d HD. unfold decoded in HD. destruct d as [[v rest]|e].
        - destruct aok; destruct HD as [_ ->]; reflexivity.
        - destruct HD as [_ ->]; reflexivity. }
      destruct o; cbn [qstep] in Q.
      all: try (apply HA in Q; assumption); try (apply HD in Q; assumption).
      all: try (destruct Q as (j & _ & Q); apply HA in Q; assumption).
      all: try (destruct Q as [_ ->]; reflexivity).
      all: repeat match type of Q with context [if ?c then _ else _] => destruct c end.
      all: try (apply HA in Q; assumption).
      all: try (destruct Q as [_ ->]; reflexivity).
      all: try (destruct Q as [-> _]; reflexivity).
      all: try (destruct Q as [(-> & _ & ->)|([e ->] & ->)]; reflexivity). }
    exact HH.
Qed.

(** Under what condition on the history every reset is safe. *)
Definition hsafe (l : list op) (b : sbuf) : Prop :=
  Forall keeps_limit l /\ (SSHBUF_SIZE_INIT <= max_size b \/ shared b = true) \/ Forall no_reset l.

Lemma hsafe_reset : forall o l b, hsafe (o :: l) b -> reset_safe o b.
Proof.
  intros o l b [[_ Hm]|Hf].
  - destruct o; cbn; auto.
  - inversion Hf; subst. destruct o; cbn in *; auto; contradiction.
Qed.
Lemma hsafe_step : forall o l b r b', hsafe (o :: l) b -> qstep o (abs b) r (abs b') -> hsafe l b'.
Proof.
  intros o l b r b' H Q. destruct (step_meta o b r b' Q) as [S M].
  destruct H as [[Hf Hm]|Hf]; inversion Hf; subst; [left|right; assumption].
  split; [assumption|]. rewrite S, M. destruct Hm as [Hm|Hm]; [|now right].
  destruct o, r; cbn in *; auto; left; consts; lia.
Qed.

(** The main refinement: safe histories never fault and are explained by the queue. *)
Lemma history_ok : forall l b, wf b -> Forall op_ok l -> hsafe l b ->
  exists rs b', run_ops l b = Some (rs, b') /\ wf b' /\ qrun l (abs b) rs (abs b') /\
    shared b' = shared b /\ max_size b' = limit_after l rs (max_size b).
Proof.
  induction l as [|o l IH]; intros b H Ho Hl.
  - exists [], b. splits; auto. constructor.
  - inversion Ho; subst.
    destruct (step_ok o b H H2 (hsafe_reset _ _ _ Hl)) as (r & b1 & E & W & Q).
    destruct (IH b1 W H3 (hsafe_step _ _ _ _ _ Hl Q)) as (rs & b' & E' & W' & Q' & S' & M').
    destruct (step_meta _ _ _ _ Q) as [S M].
    exists (r :: rs), b'. cbn [run_ops]. rewrite E, E'. splits; auto.
    + econstructor; eassumption.
    + congruence.
    + rewrite M', M. cbn [limit_after]. destruct o, r; reflexivity.
Qed.

Lemma wf_from : forall blob b, is_bytes blob -> sshbuf_from blob = Some b ->
  wf b /\ shared b = true /\ contents b = blob.
Proof.
  intros blob b Hb E. unfold sshbuf_from in E. destruct (_ <? _) eqn:El; [discriminate|].
  inversion E; subst; clear E. pose proof (zlen_nonneg Z blob).
  splits.
  - split; fcbn; auto; try lia. consts; lia.
  - reflexivity.
  - unfold contents. fcbn. rewrite Z.sub_0_r, zdrop_0. now apply ztake_all.
Qed.

Lemma start_ok : forall b, start b -> wf b /\ (SSHBUF_SIZE_INIT <= max_size b \/ shared b = true).
Proof.
  intros b [->|(blob & Hb & E)].
  - split; [apply wf_new|]. left. cbn. consts. lia.
  - destruct (wf_from blob b Hb E) as (W & S & _). auto.
Qed.

Lemma start_history : forall l b0, start b0 -> safe_history l ->
  exists rs b', run_ops l b0 = Some (rs, b') /\ wf b' /\ qrun l (abs b0) rs (abs b') /\
    shared b' = shared b0 /\ max_size b' = limit_after l rs (max_size b0).
Proof.
  intros l b0 H [Ho Hl]. destruct (start_ok b0 H) as [W M]. apply history_ok; auto.
  destruct Hl; [left|right]; auto.
Qed.

Lemma reach_wf : forall b, reachable b -> wf b.
Proof.
  intros b (b0 & l & rs & H & Hl & E). destruct (start_history l b0 H Hl) as (rs' & b' & E' & W & _).
  rewrite E in E'. inversion E'; subst. assumption.
Qed.

(** ** First in, first out *)

Lemma dec_string_enc : forall l v rest, is_bytes l -> dec_string l = ROk (v, rest) ->
  l = enc_string v ++ rest.
Proof.
  intros l v rest Hb. unfold dec_string, enc_string.
  destruct (zlen l <? 4) eqn:E1; [discriminate|].
  destruct (_ <? be_dec _) eqn:E2; [discriminate|].
  destruct (zlen (zdrop 4 l) <? _) eqn:E3; [discriminate|].
  intros E. inversion E; subst; clear E.
  pose proof (be_dec_bound (ztake 4 l) ltac:(now apply is_bytes_ztake)) as HB.
  assert (H4 : zlen (ztake 4 l) = 4) by (apply zlen_ztake; lia).
  rewrite zlen_ztake by lia.
  rewrite <- app_assoc, ztake_zdrop.
  replace 4%nat with (length (ztake 4 l)) by (unfold zlen in H4; lia).
  rewrite be_enc_dec by now apply is_bytes_ztake.
  now rewrite ztake_zdrop.
Qed.

Lemma be_dec_enc_bytes : forall w l, is_bytes l -> Z.of_nat w = zlen l -> be_enc w (be_dec l) = l.
Proof.
  intros w l H E. replace w with (length l) by (unfold zlen in E; lia). now apply be_enc_dec.
Qed.

Lemma fifo_step : forall o s r s', is_bytes (q s) -> op_ok o -> fifo_op o -> qstep o s r s' ->
  took o r ++ q s' = q s ++ wrote o r.
Proof.
  intros o s r s' Hb Ho Hf Q.
  assert (HA : forall aok v, appended aok v s r s' -> wrote o r = match r with ROk _ => v | RErr _ => [] end ->
     took o r = [] -> took o r ++ q s' = q s ++ wrote o r).
  { intros aok v HA Hw Ht. rewrite Hw, Ht. unfold appended in HA. destruct (_ && _).
    - destruct HA as [[-> ->]|(-> & _ & ->)]; cbn; now rewrite ?app_nil_r.
    - destruct HA as [[->|[_ ->]] ->]; cbn; now rewrite ?app_nil_r. }
  destruct o; cbn [qstep fifo_op op_ok] in *; try contradiction.
  - eapply HA; eauto; destruct r; reflexivity.
  - destruct (zlen s0 =? 0) eqn:E0.
    + destruct Q as [-> ->]. cbn. assert (s0 = []) as -> by (apply zlen_zero_nil; lia). now rewrite app_nil_r.
    + destruct (_ && _).
      * eapply HA; eauto; destruct r; reflexivity.
      * destruct Q as [[e ->] ->]. cbn. now rewrite app_nil_r.
  - eapply HA; eauto; destruct r; reflexivity.
  - eapply HA; eauto; destruct r; reflexivity.
  - destruct (n <=? zlen (q s)) eqn:E.
    + destruct Q as [-> ->]. cbn. now rewrite app_nil_r, ztake_zdrop.
    + destruct Q as [-> ->]. cbn. now rewrite app_nil_r.
  - destruct (Z.of_nat w <=? zlen (q s)) eqn:E.
    + destruct Q as [-> ->]. cbn. rewrite app_nil_r, be_dec_enc_bytes, ztake_zdrop; auto.
      * now apply is_bytes_ztake.
      * rewrite zlen_ztake; lia.
    + destruct Q as [-> ->]. cbn. now rewrite app_nil_r.
  - destruct Q as [-> Q]. replace (took _ r) with (@nil Z) by (destruct r; reflexivity).
    replace (wrote _ r) with (@nil Z) by (destruct r; reflexivity). now rewrite app_nil_r.
  - destruct aok; [|contradiction]. unfold decoded in Q.
    destruct (dec_string (q s)) as [[v rest]|e] eqn:E.
    + destruct Q as [-> ->]. cbn [took wrote with_q q]. rewrite app_nil_r. symmetry. now apply dec_string_enc.
    + destruct Q as [-> ->]. cbn. now rewrite app_nil_r.
  - assert (q s' = q s) as -> by (destruct Q as [(_ & _ & ->)|(_ & ->)]; reflexivity).
    replace (took _ r) with (@nil Z) by (destruct r; reflexivity).
    replace (wrote _ r) with (@nil Z) by (destruct r; reflexivity). now rewrite app_nil_r.
  - destruct Q as [-> ->]. cbn. now rewrite app_nil_r.
  - destruct Q as [-> ->]. cbn. now rewrite app_nil_r.
  - destruct Q as [-> Q]. replace (took _ r) with (@nil Z) by (destruct r; reflexivity).
    replace (wrote _ r) with (@nil Z) by (destruct r; reflexivity). now rewrite app_nil_r.
Qed.

Lemma fifo_history : forall l b rs b', wf b -> Forall op_ok l -> Forall fifo_op l ->
  run_ops l b = Some (rs, b') ->
  contents b ++ flow wrote l rs = flow took l rs ++ contents b'.
Proof.
  induction l as [|o l IH]; intros b rs b' H Ho Hf E.
  - inversion E; subst. cbn. now rewrite app_nil_r.
  - inversion Ho; subst. inversion Hf; subst.
    assert (Hr : reset_safe o b) by (destruct o; cbn in *; auto; contradiction).
    destruct (step_ok o b H H2 Hr) as (r & b1 & E1 & W & Q).
    cbn [run_ops] in E. rewrite E1 in E.
    destruct (run_ops l b1) as [[rs1 b2]|] eqn:E2; [|discriminate].
    cbn in E. inversion E; subst. cbn [flow].
    pose proof (fifo_step o (abs b) r (abs b1) (contents_bytes b H) H2 H4 Q) as F. cbn [queue_of q] in F.
    rewrite app_assoc, <- F, <- !app_assoc. f_equal. now apply IH.
Qed.

Lemma fits_iff : forall b, wf b -> shared b = false ->
  zlen (contents b) <= max_size b <= SSHBUF_SIZE_MAX /\
  (forall v, is_bytes v -> zlen v <= SIZE_MAX ->
     ((exists b', do_op (OPut true v) b = Ret (ROk VUnit) b') <-> zlen (contents b) + zlen v <= max_size b)) /\
  (forall n, 0 <= n <= SIZE_MAX ->
     ((exists b', do_op (OReserve true n) b = Ret (ROk VUnit) b') <-> zlen (contents b) + n <= max_size b)) /\
  (forall n, 0 <= n <= SIZE_MAX ->
     (do_op (OCheckReserve n) b = Ret (ROk VUnit) b <-> zlen (contents b) + n <= max_size b)) /\
  do_op OAvail b = Ret (ROk (VInt (max_size b - zlen (contents b)))) b.
Proof.
  intros b H Hs. pose proof (contents_len_bound b H).
  splits.
  - destruct H; lia.
  - destruct H; lia.
  - intros v Hv Hl.
    destruct (step_ok (OPut true v) b H (conj Hv Hl) I) as (r & b1 & E & W & Q).
    cbn [qstep] in Q. unfold appended in Q. cbn [queue_of q qmax qwritable] in Q. rewrite Hs in Q. cbn [negb andb] in Q.
    rewrite E. destruct (zlen (contents b) + zlen v <=? max_size b) eqn:Ef.
    + destruct Q as [[-> _]|(_ & ? & _)]; [|discriminate]. split; [lia|eauto].
    + split; [|lia]. intros [b' Eb]. inversion Eb; subst r. destruct Q as [[Q|[Q _]] _]; discriminate.
  - intros n Hn.
    destruct (step_ok (OReserve true n) b H Hn I) as (r & b1 & E & W & Q).
    cbn [qstep] in Q. destruct Q as (j & Hj & Q). unfold appended in Q. cbn [queue_of q qmax qwritable] in Q.
    rewrite Hs, Hj in Q. cbn [negb andb] in Q.
    rewrite E. destruct (zlen (contents b) + n <=? max_size b) eqn:Ef.
    + destruct Q as [[-> _]|(_ & ? & _)]; [|discriminate]. split; [lia|eauto].
    + split; [|lia]. intros [b' Eb]. inversion Eb; subst r. destruct Q as [[Q|[Q _]] _]; discriminate.
  - intros n Hn. cbn [do_op]. unfold mmap, mbind. rewrite check_reserve_ok, Hs by assumption.
    destruct (zlen (contents b) + n <=? max_size b) eqn:Ef; cbn; split; intros; auto; try lia; discriminate.
  - cbn [do_op]. unfold mmap, mbind. rewrite avail_ok, Hs by assumption. reflexivity.
Qed.
