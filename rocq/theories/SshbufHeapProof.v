From Verif Require Import Base SshbufModel SshbufSpec SshbufProof SshbufHeapModel SshbufHeapSpec.

(** ** Calls on a shared buffer change neither the memory nor the counters *)

Definition pres {A} (m : M A) : Prop := forall b r b', m b = Ret r b' ->
  readonly b' = readonly b /\ refcount b' = refcount b /\
  (shared b = true -> dat b' = dat b /\ alloc b' = alloc b).
Definition pres0 {A} (m : M A) : Prop := forall b r b', m b = Ret r b' ->
  readonly b' = readonly b /\ refcount b' = refcount b.
Definition refuses {A} (m : M A) : Prop := forall b r b', shared b = true -> m b = Ret r b' -> exists e, r = RErr e.

Lemma pres_pres0 : forall A (m : M A), pres m -> pres0 m.
Proof. intros A m H b r b' E. destruct (H b r b' E) as (?&?&_). auto. Qed.
Lemma shared_same : forall b b', readonly b' = readonly b -> refcount b' = refcount b -> shared b' = shared b.
Proof. intros b b' H1 H2. unfold shared. now rewrite H1, H2. Qed.

Lemma pres_bind : forall A B (m : M A) (k : A -> M B), pres m -> (forall a, pres (k a)) -> pres (mbind m k).
Proof.
  intros A B m k Hm Hk b r b' E. unfold mbind in E. destruct (m b) as [[a|e] b1|f] eqn:E1; [| |discriminate].
  - destruct (Hm _ _ _ E1) as (R1 & F1 & D1). destruct (Hk a _ _ _ E) as (R2 & F2 & D2).
    splits; try congruence. intros Hs. destruct (D1 Hs). rewrite (shared_same _ _ R1 F1) in D2. destruct (D2 Hs).
    split; congruence.
  - inversion E; subst. eapply Hm; eauto.
Qed.
Lemma pres0_bind : forall A B (m : M A) (k : A -> M B), pres0 m -> (forall a, pres0 (k a)) -> pres0 (mbind m k).
Proof.
  intros A B m k Hm Hk b r b' E. unfold mbind in E. destruct (m b) as [[a|e] b1|f] eqn:E1; [| |discriminate].
  - destruct (Hm _ _ _ E1) as (R1 & F1). destruct (Hk a _ _ _ E) as (R2 & F2). split; congruence.
  - inversion E; subst. eapply Hm; eauto.
Qed.
Lemma pres_refuses : forall A B (m : M A) (k : A -> M B), pres m -> refuses m -> (forall a, pres0 (k a)) -> pres (mbind m k).
Proof.
  intros A B m k Hm Hr Hk b r b' E. 
  assert (H0 : pres0 (mbind m k)) by (apply pres0_bind; auto using pres_pres0).
  destruct (H0 _ _ _ E) as [R F]. splits; auto. intros Hs.
  unfold mbind in E. destruct (m b) as [[a|e] b1|f] eqn:E1; [| |discriminate].
  - destruct (Hr _ _ _ Hs E1) as [e He]. discriminate.
  - inversion E; subst. destruct (Hm _ _ _ E1) as (_ & _ & D). auto.
Qed.
Lemma refuses_bind : forall A B (m : M A) (k : A -> M B), refuses m -> refuses (mbind m k).
Proof.
  intros A B m k Hr b r b' Hs E. unfold mbind in E. destruct (m b) as [[a|e] b1|f] eqn:E1; [| |discriminate].
  - destruct (Hr _ _ _ Hs E1). discriminate.
  - inversion E; subst. eauto.
Qed.

Ltac solve_pres := let bb := fresh in let rr := fresh in let bb' := fresh in let EE := fresh in
  intros bb rr bb' EE; cbv beta zeta in EE; repeat match type of EE with context [if ?c then _ else _] => destruct c eqn:? end;
  try discriminate; inversion EE; subst; cbn; splits; auto; try congruence.
Lemma pres_ret : forall A (a : A), pres (mret a). Proof. intros. solve_pres. Qed.
Lemma pres_err : forall A e, pres (@merr A e). Proof. intros. solve_pres. Qed.
Lemma pres_sanity : pres check_sanity. Proof. unfold check_sanity. solve_pres. Qed.
Lemma pres_read : forall p n, pres (mem_read p n). Proof. intros. unfold mem_read. solve_pres. Qed.
Lemma pres0_write : forall p v, pres0 (mem_write p v). Proof. intros. unfold mem_write. solve_pres. Qed.
Lemma pres_if : forall A (c : bool) (m n : M A), pres m -> pres n -> pres (if c then m else n).
Proof. intros A [] m n; auto. Qed.
Lemma pres0_if : forall A (c : bool) (m n : M A), pres0 m -> pres0 n -> pres0 (if c then m else n).
Proof. intros A [] m n; auto. Qed.
#[local] Hint Resolve pres_ret pres_err pres_sanity pres_read pres0_write pres_if pres0_if pres_pres0 pres_bind pres0_bind : pres.

Lemma pres_len : pres sshbuf_len. Proof. apply pres_bind; auto with pres. intros _. solve_pres. Qed.
Lemma pres_ptr : pres sshbuf_ptr. Proof. apply pres_bind; auto with pres. intros _. solve_pres. Qed.
Lemma pres_avail : pres sshbuf_avail. Proof. apply pres_bind; auto with pres. intros _. solve_pres. Qed.
#[local] Hint Resolve pres_len pres_ptr pres_avail : pres.
Lemma pres_check_reserve : forall n, pres (sshbuf_check_reserve n).
Proof. intros. apply pres_bind; auto with pres. intros _. solve_pres. Qed.
Lemma refuses_check_reserve : forall n, refuses (sshbuf_check_reserve n).
Proof.
  intros n b r b' Hs E. unfold sshbuf_check_reserve, mbind, check_sanity in E. destruct (sanity b); [|discriminate].
  rewrite Hs in E. inversion E; subst. eauto.
Qed.
#[local] Hint Resolve pres_check_reserve refuses_check_reserve : pres.
Lemma pres_pack : forall f, pres (maybe_pack f).
Proof.
  intros f b r b' E. unfold maybe_pack in E.
  destruct ((off b =? 0) || shared b) eqn:Eo. { inversion E; subst; auto. }
  assert (Hs : shared b = false) by (destruct (shared b); [rewrite orb_true_r in Eo; discriminate|reflexivity]).
  destruct (_ || _) in E; [|inversion E; subst; auto].
  assert (H0 : pres0 (do v <- mem_read (off b) (u64 (size b - off b));;
     run mem_write 0 v ;; (fun b' => Ret (ROk tt) (set_off (set_size b' (u64 (size b' - off b'))) 0)))).
  { apply pres0_bind; auto with pres. intros v. apply pres0_bind; auto with pres. intros _. solve_pres. }
  destruct (H0 _ _ _ E). splits; auto. congruence.
Qed.
Lemma pres_allocate : forall a n, pres (sshbuf_allocate a n).
Proof.
  intros. apply pres_refuses; auto with pres. intros _. apply pres0_bind.
  - intros b r b' E. destruct (pres_pack _ _ _ _ E) as (?&?&_). auto.
  - intros _ b r b' E. cbv beta in E. destruct (_ <=? _). { inversion E; subst; auto. }
    destruct (negb a). { inversion E; subst; auto. }
    destruct (pres_check_reserve _ _ _ _ E) as (?&?&_). cbn in *. auto.
Qed.
Lemma refuses_allocate : forall a n, refuses (sshbuf_allocate a n).
Proof. intros. apply refuses_bind; auto with pres. Qed.
#[local] Hint Resolve pres_allocate refuses_allocate : pres.
Lemma pres_reserve : forall a n, pres (sshbuf_reserve a n).
Proof. intros. apply pres_bind; auto with pres. intros _. solve_pres. Qed.
Lemma refuses_reserve : forall a n, refuses (sshbuf_reserve a n).
Proof. intros. apply refuses_bind; auto with pres. Qed.
#[local] Hint Resolve pres_reserve refuses_reserve : pres.
Lemma pres_consume : forall n, pres (sshbuf_consume n).
Proof.
  intros. apply pres_bind; auto with pres. intros _. apply pres_if; auto with pres.
  apply pres_bind; auto with pres. intros l. apply pres_if; auto with pres. solve_pres.
Qed.
Lemma pres_consume_end : forall n, pres (sshbuf_consume_end n).
Proof.
  intros. apply pres_bind; auto with pres. intros _. apply pres_if; auto with pres.
  apply pres_bind; auto with pres. intros l. apply pres_if; auto with pres. solve_pres.
Qed.
#[local] Hint Resolve pres_consume pres_consume_end : pres.
Lemma pres_peek_string : pres sshbuf_peek_string_direct.
Proof. unfold sshbuf_peek_string_direct. auto 12 with pres. Qed.
#[local] Hint Resolve pres_peek_string : pres.
Lemma pres_consume_as : forall A n (a : A) e, pres (fun b => match sshbuf_consume n b with
           | Ret (ROk _) b' => Ret (ROk a) b'
           | Ret (RErr _) b' => Ret (RErr e) b'
           | Fault f => Fault f
           end).
Proof.
  intros A n a e b r b' E. destruct (sshbuf_consume n b) as [[u|x] b1|f] eqn:E1; inversion E; subst;
  eapply pres_consume; eauto.
Qed.
#[local] Hint Resolve pres_consume_as : pres.
Lemma pres_get_string_direct : pres sshbuf_get_string_direct.
Proof. apply pres_bind; auto with pres. Qed.
#[local] Hint Resolve pres_get_string_direct : pres.
Lemma pres_check_offset : forall w o n, pres (check_offset w o n).
Proof. intros. unfold check_offset. auto 12 with pres. Qed.
#[local] Hint Resolve pres_check_offset : pres.
Lemma pres_map : forall A B (f : A -> B) m, pres m -> pres (mmap f m).
Proof. intros. apply pres_bind; auto with pres. Qed.

Lemma pres_op : forall o, pres (do_op o).
Proof.
  intros o. destruct o; cbn [do_op]; apply pres_map; auto with pres.
  - apply pres_refuses; auto with pres.
  - unfold sshbuf_putf. apply pres_if; auto with pres. apply pres_refuses; auto with pres. 
  - apply pres_refuses; auto with pres.
  - unfold sshbuf_put_string. apply pres_if; auto with pres. apply pres_refuses; auto with pres.
  - unfold sshbuf_put_bignum2_bytes. apply pres_if; auto with pres. cbv zeta. apply pres_refuses; auto with pres.
  - unfold sshbuf_poke. apply pres_bind; auto with pres. intros _. apply pres_bind; auto with pres. intros _.
    intros b r b' E. cbv beta in E. destruct (shared b) eqn:Es.
    + inversion E; subst; auto.
    + destruct (pres0_write _ _ _ _ _ E). splits; auto. congruence.
  - unfold sshbuf_get. auto 12 with pres.
  - unfold sshbuf_get_int. auto 12 with pres.
  - unfold sshbuf_peek_int. auto 12 with pres.
  - unfold sshbuf_get_string. auto 12 with pres.
  - unfold sshbuf_get_cstring. apply pres_bind; [auto with pres|]. intros p. apply pres_bind; [auto with pres|].
    intros v. cbv zeta. apply pres_if; [auto with pres|].
    apply pres_bind; [|auto with pres].
    intros b r b' E. destruct (sshbuf_get_string_direct b) as [[u|x] b1|f] eqn:E1; inversion E; subst;
    eapply pres_get_string_direct; eauto.
  - unfold sshbuf_get_bignum2_bytes_direct. auto 12 with pres.
  - intros b r b' E. unfold sshbuf_reset in E. destruct (shared b) eqn:Es. { inversion E; subst; auto. }
    destruct (negb (sanity b)); [discriminate|]. cbv zeta in E.
    destruct (pres0_write _ _ _ _ _ E) as [R F]. rewrite R, F.
    splits; try (destruct (_ && _); reflexivity). congruence.
  - intros b r b' E. unfold sshbuf_set_max_size in E.
    unfold mbind at 1 in E. unfold check_sanity in E. destruct (sanity b); [|discriminate].
    destruct (m =? max_size b). { inversion E; subst; auto. }
    destruct (shared b) eqn:Es. { inversion E; subst; auto. }
    destruct (_ <? m). { inversion E; subst; auto. }
    match type of E with ?mm b = _ => assert (H0 : pres0 mm) end.
    { apply pres0_bind; [apply pres_pres0, pres_pack|]. intros _. apply pres0_bind.
      - solve_pres.
      - intros _. solve_pres. }
    destruct (H0 _ _ _ E). splits; auto. congruence.
Qed.

(** ** Counting *)
Fixpoint count (f : nat -> bool) (n : nat) : nat :=
  match n with O => O | S k => (if f k then 1 else 0) + count f k end.
Lemma count_ext : forall f g n, (forall k, (k < n)%nat -> f k = g k) -> count f n = count g n.
Proof. induction n; intros H; cbn; [reflexivity|]. rewrite H by lia. rewrite IHn; auto. Qed.
Lemma count_le : forall f n, (count f n <= n)%nat.
Proof. induction n; cbn; [lia|]. destruct (f n); lia. Qed.
Lemma count_pos : forall f n k, (k < n)%nat -> f k = true -> (1 <= count f n)%nat.
Proof.
  induction n; intros k Hk Hf; [lia|]. cbn. destruct (Nat.eq_dec k n) as [->|]; [rewrite Hf; lia|].
  specialize (IHn k ltac:(lia) Hf). lia.
Qed.
Lemma count_zero : forall f n, count f n = 0%nat -> forall k, (k < n)%nat -> f k = false.
Proof. intros f n H k Hk. destruct (f k) eqn:E; [|reflexivity]. pose proof (count_pos f n k Hk E). lia. Qed.
Lemma count_has : forall f n, (1 <= count f n)%nat -> exists k, (k < n)%nat /\ f k = true.
Proof.
  induction n; cbn; intros H; [lia|]. destruct (f n) eqn:E; [exists n; auto|].
  destruct IHn as (k & Hk & Hf); [lia|]. exists k. split; [lia|assumption].
Qed.
Lemma count_flip : forall f g n k, (k < n)%nat -> f k = true -> g k = false ->
  (forall j, j <> k -> f j = g j) -> count f n = S (count g n).
Proof.
  induction n; intros k Hk Hf Hg Hj; [lia|]. cbn. destruct (Nat.eq_dec k n) as [->|Hne].
  - rewrite Hf, Hg. cbn. f_equal. apply count_ext. intros j Hj'. apply Hj. lia.
  - rewrite (Hj n) by lia. rewrite (IHn k); auto; lia.
Qed.

(** ** The invariant *)
Definition act (c : cell) : bool := 0 <? refcount (st c).
Definition is_par (c : cell) (i : nat) : bool :=
  act c && match par c with Some p => Nat.eqb p i | None => false end.
Definition cnt (h : heap) (i : nat) : nat := count (fun j => is_par (hp h j) i) (hn h).
Definition b2z (b : bool) : Z := if b then 1 else 0.
Definition pendz (p : option nat) (i : nat) : Z := match p with Some k => b2z (Nat.eqb k i) | None => 0 end.

(** [pend]: one reference to it is about to be dropped. [D]: structures whose
    count is zero and that are about to be released. *)
Record inv (h : heap) (pend : option nat) (D : nat -> bool) : Prop := {
  i_out : forall i, (hn h <= i)%nat -> hp h i = dead;
  i_live : forall i, live (hp h i) = act (hp h i) || D i;
  i_D : forall i, D i = true -> act (hp h i) = false;
  i_held : forall i, act (hp h i) = false -> held (hp h i) = false;
  i_ref : forall i, act (hp h i) = true ->
    refcount (st (hp h i)) = b2z (held (hp h i)) + Z.of_nat (cnt h i) + pendz pend i;
  i_par : forall i p, act (hp h i) = true -> par (hp h i) = Some p ->
    (p < i)%nat /\ act (hp h p) = true /\ root (hp h i) = root (hp h p) /\ readonly (st (hp h i)) = true;
  i_top : forall i, act (hp h i) = true -> par (hp h i) = None -> root (hp h i) = i /\ base (hp h i) = 0;
  i_root : forall i, act (hp h i) = true -> act (hp h (root (hp h i))) = true /\
    par (hp h (root (hp h i))) = None /\ (root (hp h i) <= i)%nat;
  i_rng : forall i, act (hp h i) = true -> 0 <= base (hp h i) /\
    base (hp h i) + alloc (st (hp h i)) <= zlen (dat (st (hp h (root (hp h i)))));
  i_own : forall i, act (hp h i) = true -> par (hp h i) = None ->
    zlen (dat (st (hp h i))) = alloc (st (hp h i)) /\ is_bytes (dat (st (hp h i)));
  i_sb : forall i, act (hp h i) = true -> let s := st (hp h i) in
    0 <= off s <= size s /\ size s <= alloc s /\ alloc s <= max_size s <= SSHBUF_SIZE_MAX;
  i_lim : forall i, act (hp h i) = true ->
    SSHBUF_SIZE_INIT <= max_size (st (hp h i)) \/ readonly (st (hp h i)) = true
}.
Definition none_dead : nat -> bool := fun _ => false.
Definition small (h : heap) : Prop := forall i, refcount (st (hp h i)) <= SSHBUF_REFS_MAX.

Lemma inv0 : inv heap0 None none_dead.
Proof. split; cbn; auto; try discriminate. Qed.

Lemma inv_lt : forall h pd D i, inv h pd D -> act (hp h i) = true -> (i < hn h)%nat.
Proof.
  intros h pd D i H Ha. destruct (Nat.lt_ge_cases i (hn h)) as [|Hge]; [assumption|].
  rewrite (i_out _ _ _ H i Hge) in Ha. discriminate.
Qed.

Lemma root_self : forall h pd D i, inv h pd D -> act (hp h i) = true ->
  (root (hp h i) = i <-> par (hp h i) = None).
Proof.
  intros h pd D i H Ha. split.
  - intros Hr. destruct (i_root _ _ _ H i Ha) as (_ & Hp & _). now rewrite Hr in Hp.
  - intros Hp. now apply (i_top _ _ _ H).
Qed.

(** Somebody else's root has a child. *)
Lemma root_has_child : forall h pd D i, inv h pd D -> forall j, act (hp h j) = true -> root (hp h j) = i -> j <> i ->
  exists k, act (hp h k) = true /\ par (hp h k) = Some i.
Proof.
  intros h pd D i H j. induction j as [j IH] using lt_wf_ind. intros Ha Hr Hne.
  destruct (par (hp h j)) as [p|] eqn:Ep.
  - destruct (i_par _ _ _ H j p Ha Ep) as (Hlt & Hp & Hrp & _).
    destruct (Nat.eq_dec p i) as [->|Hpi]; [eauto|]. apply (IH p); auto. congruence.
  - destruct (i_top _ _ _ H j Ha Ep). congruence.
Qed.
Lemma child_cnt : forall h pd D i k, inv h pd D -> act (hp h k) = true -> par (hp h k) = Some i -> (1 <= cnt h i)%nat.
Proof.
  intros h pd D i k H Ha Hp. unfold cnt. apply (count_pos _ _ k).
  - eapply inv_lt; eauto.
  - unfold is_par. rewrite Ha, Hp, Nat.eqb_refl. reflexivity.
Qed.

Lemma ref_bounds : forall h pd D i, inv h pd D -> small h -> act (hp h i) = true ->
  1 <= refcount (st (hp h i)) <= SSHBUF_REFS_MAX.
Proof.
  intros h pd D i H Hs Ha. split; [unfold act in Ha; lia|apply Hs].
Qed.

Lemma inv_sane : forall h pd D i, inv h pd D -> small h -> act (hp h i) = true -> sanity (st (hp h i)) = true.
Proof.
  intros h pd D i H Hs Ha. pose proof (ref_bounds _ _ _ _ H Hs Ha). pose proof (i_sb _ _ _ H i Ha) as Hb.
  unfold sanity. cbv zeta in Hb.
  replace (refcount (st (hp h i)) <? 1) with false by lia.
  replace (SSHBUF_REFS_MAX <? refcount (st (hp h i))) with false by lia.
  replace (SSHBUF_SIZE_MAX <? max_size (st (hp h i))) with false by lia.
  replace (max_size (st (hp h i)) <? alloc (st (hp h i))) with false by lia.
  replace (alloc (st (hp h i)) <? size (st (hp h i))) with false by lia.
  replace (size (st (hp h i)) <? off (st (hp h i))) with false by lia. reflexivity.
Qed.

Lemma view_ok : forall h pd D i, inv h pd D -> small h -> act (hp h i) = true ->
  exists d, view_dat h i = Some d /\ zlen d = alloc (st (hp h i)) /\ is_bytes d /\
    (par (hp h i) = None -> d = dat (st (hp h i))) /\ wf (set_dat (st (hp h i)) d).
Proof.
  intros h pd D i H Hs Ha. pose proof (ref_bounds _ _ _ _ H Hs Ha) as HR.
  pose proof (i_sb _ _ _ H i Ha) as Hb. cbv zeta in Hb.
  destruct (i_root _ _ _ H i Ha) as (Hra & Hrp & _). destruct (i_rng _ _ _ H i Ha) as [Hb0 Hb1].
  unfold view_dat. rewrite (i_live _ _ _ H i), Ha, (i_live _ _ _ H (root (hp h i))), Hra. cbn [orb andb].
  assert (HG : forall d, zlen d = alloc (st (hp h i)) -> is_bytes d -> wf (set_dat (st (hp h i)) d)).
  { intros d Hl Hd. split; cbn; auto; lia. }
  destruct (Nat.eqb (root (hp h i)) i) eqn:Er.
  - apply Nat.eqb_eq in Er. assert (Hp : par (hp h i) = None) by (eapply root_self; eauto).
    destruct (i_own _ _ _ H i Ha Hp) as [Hl Hby]. eexists. splits; eauto.
  - replace (base (hp h i) + alloc (st (hp h i)) <=? zlen (dat (st (hp h (root (hp h i)))))) with true by lia.
    destruct (i_own _ _ _ H _ Hra Hrp) as [Hl Hby].
    assert (Hz : zlen (ztake (alloc (st (hp h i))) (zdrop (base (hp h i)) (dat (st (hp h (root (hp h i))))))) = alloc (st (hp h i))).
    { apply zlen_ztake. rewrite zlen_zdrop by lia. lia. }
    assert (Hby' : is_bytes (ztake (alloc (st (hp h i))) (zdrop (base (hp h i)) (dat (st (hp h (root (hp h i)))))))).
    { apply is_bytes_ztake, is_bytes_zdrop, Hby. }
    eexists. splits; eauto.
    intros Hp. exfalso. apply Nat.eqb_neq in Er. apply Er. now apply (i_top _ _ _ H).
Qed.

Lemma upd_same : forall h i c, hp (upd h i c) i = c.
Proof. intros. cbn. now rewrite Nat.eqb_refl. Qed.
Lemma upd_other : forall h i c j, j <> i -> hp (upd h i c) j = hp h j.
Proof. intros. cbn. destruct (Nat.eqb j i) eqn:E; [apply Nat.eqb_eq in E; congruence|reflexivity]. Qed.

Lemma cnt_same : forall h h' i, hn h' = hn h -> (forall j, is_par (hp h' j) i = is_par (hp h j) i) -> cnt h' i = cnt h i.
Proof. intros h h' i Hn Hj. unfold cnt. rewrite Hn. apply count_ext. intros k _. apply Hj. Qed.

(** ** A call on one buffer *)
Lemma on_buf_inv : forall h i d b', inv h None none_dead -> small h -> held (hp h i) = true ->
  act (hp h i) = true -> view_dat h i = Some d ->
  wf b' -> readonly b' = readonly (st (hp h i)) -> refcount b' = refcount (st (hp h i)) ->
  (shared (st (hp h i)) = true -> dat b' = d /\ alloc b' = alloc (st (hp h i))) ->
  (SSHBUF_SIZE_INIT <= max_size b' \/ readonly b' = true) ->
  let c' := if Nat.eqb (root (hp h i)) i then set_st (hp h i) b' else set_st (hp h i) (set_dat b' []) in
  inv (upd h i c') None none_dead /\ view (upd h i c') i = Some b' /\
  (forall j, j <> i -> act (hp h j) = true -> view (upd h i c') j = view h j) /\
  st c' = (if Nat.eqb (root (hp h i)) i then b' else set_dat b' []) /\ held c' = true /\ root c' = root (hp h i) /\
  base c' = base (hp h i) /\ par c' = par (hp h i).
Proof.
  intros h i d b' H Hs Hh Ha Hv Hwf Hro Hrc Hsh Hlim c'.
  destruct (view_ok _ _ _ _ H Hs Ha) as (d0 & Hv0 & Hzl & Hby & Hown & Hwfb).
  rewrite Hv in Hv0. inversion Hv0; subst d0; clear Hv0.
  assert (Hcst : st c' = if Nat.eqb (root (hp h i)) i then b' else set_dat b' []).
  { unfold c'. destruct (Nat.eqb (root (hp h i)) i); reflexivity. }
  assert (Hcr : root c' = root (hp h i) /\ base c' = base (hp h i) /\ par c' = par (hp h i) /\ live c' = live (hp h i) /\ held c' = held (hp h i)).
  { unfold c'. destruct (Nat.eqb (root (hp h i)) i); auto. }
  destruct Hcr as (Hcr & Hcb & Hcp & Hcl & Hch).
  assert (Hcrc : refcount (st c') = refcount (st (hp h i)) /\ readonly (st c') = readonly (st (hp h i)) /\
    off (st c') = off b' /\ size (st c') = size b' /\ alloc (st c') = alloc b' /\ max_size (st c') = max_size b').
  { rewrite Hcst. destruct (Nat.eqb (root (hp h i)) i); cbn; auto 10. }
  destruct Hcrc as (Hcrc & Hcro & Hcof & Hcsz & Hcal & Hcmx).
  assert (Hca : act c' = act (hp h i)) by (unfold act; now rewrite Hcrc).
  assert (Hact : forall j, act (hp (upd h i c') j) = act (hp h j)).
  { intros j. destruct (Nat.eq_dec j i) as [->|]; [now rewrite upd_same|now rewrite upd_other]. }
  assert (Hpar : forall j, par (hp (upd h i c') j) = par (hp h j)).
  { intros j. destruct (Nat.eq_dec j i) as [->|]; [now rewrite upd_same|now rewrite upd_other]. }
  assert (Hroot : forall j, root (hp (upd h i c') j) = root (hp h j)).
  { intros j. destruct (Nat.eq_dec j i) as [->|]; [now rewrite upd_same|now rewrite upd_other]. }
  assert (Hbase : forall j, base (hp (upd h i c') j) = base (hp h j)).
  { intros j. destruct (Nat.eq_dec j i) as [->|]; [now rewrite upd_same|now rewrite upd_other]. }
  assert (Hheld : forall j, held (hp (upd h i c') j) = held (hp h j)).
  { intros j. destruct (Nat.eq_dec j i) as [->|]; [now rewrite upd_same|now rewrite upd_other]. }
  assert (Hlive : forall j, live (hp (upd h i c') j) = live (hp h j)).
  { intros j. destruct (Nat.eq_dec j i) as [->|]; [now rewrite upd_same|now rewrite upd_other]. }
  assert (Hcnt : forall j, cnt (upd h i c') j = cnt h j).
  { intros j. apply cnt_same; [reflexivity|]. intros k. unfold is_par. now rewrite Hact, Hpar. }
  pose proof (ref_bounds _ _ _ _ H Hs Ha) as HR.
  (* somebody viewing our memory means we are shared *)
  assert (Hview : forall j, act (hp h j) = true -> root (hp h j) = i -> j <> i ->
            dat (st c') = dat (st (hp h i)) /\ alloc b' = alloc (st (hp h i))).
  { intros j Hj Hrj Hne. destruct (root_has_child _ _ _ _ H j Hj Hrj Hne) as (k & Hk & Hpk).
    pose proof (child_cnt _ _ _ _ _ H Hk Hpk).
    assert (Hshd : shared (st (hp h i)) = true).
    { unfold shared. rewrite (i_ref _ _ _ H i Ha), Hh. cbn [pendz b2z].
      destruct (1 <? 1 + Z.of_nat (cnt h i) + 0) eqn:E; [apply orb_true_r|lia]. }
    destruct (Hsh Hshd) as [Hd Hal]. split; [|assumption]. rewrite Hcst.
    assert (Hroot_i : root (hp h i) = i).
    { destruct (i_root _ _ _ H j Hj) as (_ & Hp & _). rewrite Hrj in Hp. now apply (i_top _ _ _ H). }
    rewrite Hroot_i, Nat.eqb_refl, Hd. apply Hown. apply (root_self _ _ _ _ H Ha). assumption. }
  assert (Hdat : forall j, act (hp h j) = true ->
     (root (hp h j) = i -> j = i \/ dat (st c') = dat (st (hp h i)))).
  { intros j Hj Hrj. destruct (Nat.eq_dec j i); [auto|right; eapply Hview; eauto]. }
  pose proof Hwf as Hwf'. destruct Hwf' as [w1 w2 w3 w4 w5 w6].
  assert (Halloc_view : root (hp h i) <> i -> alloc b' = alloc (st (hp h i)) /\ dat b' = d).
  { intros Hne. assert (Hro' : readonly (st (hp h i)) = true).
    { destruct (par (hp h i)) as [p|] eqn:Ep; [|exfalso; apply Hne; now apply (i_top _ _ _ H)].
      now destruct (i_par _ _ _ H i p Ha Ep) as (_ & _ & _ & ?). }
    destruct (Hsh ltac:(unfold shared; now rewrite Hro')). auto. }
  assert (HI : inv (upd h i c') None none_dead).
  { split.
    - intros j Hj. cbn in Hj. destruct (Nat.eq_dec j i) as [->|]; [|rewrite upd_other by assumption; now apply (i_out _ _ _ H)].
      pose proof (inv_lt _ _ _ _ H Ha). lia.
    - intros j. rewrite Hlive, Hact. apply (i_live _ _ _ H).
    - intros j Hj. discriminate.
    - intros j. rewrite Hact, Hheld. apply (i_held _ _ _ H).
    - intros j. rewrite Hact, Hheld, Hcnt. intros Hj. destruct (Nat.eq_dec j i) as [->|].
      + rewrite upd_same, Hcrc. now apply (i_ref _ _ _ H).
      + rewrite upd_other by assumption. now apply (i_ref _ _ _ H).
    - intros j p. rewrite !Hact, Hpar, !Hroot. intros Hj Hp. destruct (i_par _ _ _ H j p Hj Hp) as (P1 & P2 & P3 & P4).
      splits; auto. destruct (Nat.eq_dec j i) as [->|]; [rewrite upd_same|rewrite upd_other by assumption]; congruence.
    - intros j. rewrite Hact, Hpar, Hroot, Hbase. apply (i_top _ _ _ H).
    - intros j. rewrite Hroot, !Hact, Hpar. apply (i_root _ _ _ H).
    - intros j. rewrite Hact, Hbase, Hroot. intros Hj. destruct (i_rng _ _ _ H j Hj) as [B0 B1]. split; [assumption|].
      destruct (Nat.eq_dec j i) as [->|Hne].
      + rewrite upd_same, Hcal. destruct (Nat.eq_dec (root (hp h i)) i) as [Er|Er].
        * rewrite Er, upd_same, Hcst, Er, Nat.eqb_refl.
          destruct (i_top _ _ _ H i Ha ltac:(eapply root_self; eauto)) as [_ ->]. lia.
        * rewrite upd_other by assumption. destruct (Halloc_view Er) as [-> _]. assumption.
      + rewrite (upd_other _ _ _ j) by assumption. destruct (Nat.eq_dec (root (hp h j)) i) as [Er|Er].
        * rewrite Er, upd_same. destruct (Hview j Hj Er Hne) as [-> _]. now rewrite <- Er.
        * now rewrite upd_other by assumption.
    - intros j. rewrite Hact, Hpar. intros Hj Hp. destruct (Nat.eq_dec j i) as [->|Hne].
      + rewrite upd_same, Hcal, Hcst. destruct (i_top _ _ _ H i Ha Hp) as [-> _]. rewrite Nat.eqb_refl. auto.
      + rewrite upd_other by assumption. now apply (i_own _ _ _ H).
    - intros j. rewrite Hact. intros Hj. destruct (Nat.eq_dec j i) as [->|Hne].
      + rewrite upd_same. cbv zeta. rewrite Hcof, Hcsz, Hcal, Hcmx. auto.
      + rewrite upd_other by assumption. now apply (i_sb _ _ _ H).
    - intros j. rewrite Hact. intros Hj. destruct (Nat.eq_dec j i) as [->|Hne].
      + rewrite upd_same, Hcmx, Hcro. now rewrite <- Hro.
      + rewrite upd_other by assumption. now apply (i_lim _ _ _ H). }
  split; [exact HI|]. splits.
  - unfold view, view_dat. rewrite Hroot, upd_same, Hlive, Hcl.
    destruct (i_root _ _ _ H i Ha) as (Hra & _ & _).
    rewrite !(i_live _ _ _ H), Ha, Hra. cbn [orb andb].
    destruct (Nat.eqb (root (hp h i)) i) eqn:Er.
    + rewrite Hcst. cbn [option_map]. f_equal. destruct b'; reflexivity.
    + apply Nat.eqb_neq in Er. destruct (Halloc_view Er) as [Hal Hdd].
      rewrite Hcal, Hcb, Hal, upd_other by assumption.
      unfold view_dat in Hv. rewrite !(i_live _ _ _ H), Ha, Hra in Hv. cbn [orb andb] in Hv.
      apply Nat.eqb_neq in Er. rewrite Er in Hv.
      destruct (_ <=? _); [|discriminate]. inversion Hv as [Hd']. rewrite Hd'. cbn [option_map].
      rewrite Hcst. f_equal. destruct b'; cbn in *. now rewrite Hdd.
  - intros j Hne Hj. unfold view, view_dat. rewrite Hroot, !Hlive, (upd_other _ _ _ j) by assumption.
    destruct (live (hp h j) && live (hp h (root (hp h j)))); [|reflexivity].
    destruct (Nat.eqb (root (hp h j)) j); [reflexivity|].
    destruct (Nat.eq_dec (root (hp h j)) i) as [Er|Er].
    + rewrite Er, upd_same. destruct (Hview j Hj Er Hne) as [-> _]. reflexivity.
    + now rewrite upd_other by assumption.
  - exact Hcst.
  - congruence.
  - assumption.
  - assumption.
  - assumption.
Qed.

Lemma held_act : forall h pd D i, inv h pd D -> held (hp h i) = true -> act (hp h i) = true.
Proof.
  intros h pd D i H Hh. destruct (act (hp h i)) eqn:E; [reflexivity|].
  rewrite (i_held _ _ _ H i E) in Hh. discriminate.
Qed.

Lemma on_buf_ok : forall A h i (m : M A) (k : heap -> A -> hout), inv h None none_dead -> small h ->
  held (hp h i) = true -> pres m ->
  (forall b, wf b -> (SSHBUF_SIZE_INIT <= max_size b \/ readonly b = true) ->
     exists r b', m b = Ret r b' /\ wf b' /\ (SSHBUF_SIZE_INIT <= max_size b' \/ readonly b' = true)) ->
  exists b r b' c', view h i = Some b /\ wf b /\ m b = Ret r b' /\ wf b' /\
    st c' = (if Nat.eqb (root (hp h i)) i then b' else set_dat b' []) /\
    held c' = true /\ root c' = root (hp h i) /\ base c' = base (hp h i) /\ par c' = par (hp h i) /\
    inv (upd h i c') None none_dead /\ refcount (st c') = refcount (st (hp h i)) /\ view (upd h i c') i = Some b' /\
    (forall j, j <> i -> act (hp h j) = true -> view (upd h i c') j = view h j) /\
    on_buf h i m k = match r with ROk a => k (upd h i c') a | RErr _ => HRet false (upd h i c') end.
Proof.
  intros A h i m k H Hs Hh Hp Hm. pose proof (held_act _ _ _ _ H Hh) as Ha.
  destruct (view_ok _ _ _ _ H Hs Ha) as (d & Hv & Hzl & Hby & Hown & Hwfb).
  set (b := set_dat (st (hp h i)) d) in *.
  destruct (Hm b Hwfb ltac:(exact (i_lim _ _ _ H i Ha))) as (r & b' & E & Hwf' & Hlim').
  destruct (Hp _ _ _ E) as (Hro & Hrc & Hsh).
  pose proof (on_buf_inv h i d b' H Hs Hh Ha Hv Hwf' Hro Hrc Hsh Hlim') as HB. cbv zeta in HB.
  set (c' := if Nat.eqb (root (hp h i)) i then set_st (hp h i) b' else set_st (hp h i) (set_dat b' [])) in *.
  destruct HB as (HI & Hvi & Hvj & Hst & Hhe & Hrt & Hba & Hpa).
  exists b, r, b', c'. 
  assert (Hview : view h i = Some b) by (unfold view; now rewrite Hv).
  splits; auto.
  { rewrite Hst. destruct (Nat.eqb _ _); exact Hrc. }
  unfold on_buf. rewrite Hview, E. unfold c'.
  destruct (Nat.eqb (root (hp h i)) i) eqn:Er; [destruct r; reflexivity|].
  assert (Hd : dat b' = dat b).
  { assert (Hro' : readonly (st (hp h i)) = true).
    { destruct (par (hp h i)) as [p|] eqn:Ep.
      - now destruct (i_par _ _ _ H i p Ha Ep) as (_ & _ & _ & ?).
      - apply Nat.eqb_neq in Er. exfalso. apply Er. now apply (i_top _ _ _ H). }
    destruct (Hsh ltac:(unfold shared; cbn; now rewrite Hro')). assumption. }
  rewrite Hd, beqb_refl. destruct r; reflexivity.
Qed.

(** ** Deriving a buffer *)
Lemma derive_ok : forall h i b pos len, inv h None none_dead -> small h -> refcount (st (hp h i)) < SSHBUF_REFS_MAX ->
  held (hp h i) = true -> view h i = Some b -> 0 <= pos -> 0 <= len -> pos + len <= alloc b ->
  exists h', derive h i pos len = HRet true h' /\ inv h' None none_dead /\ small h' /\ hn h' = S (hn h) /\
    held (hp h' (hn h)) = true /\ par (hp h' (hn h)) = Some i /\
    readable h' (hn h) = Some (ztake len (zdrop pos (dat b))) /\
    (forall j, j <> hn h -> held (hp h' j) = held (hp h j) /\ live (hp h' j) = live (hp h j) /\
       par (hp h' j) = par (hp h j) /\ readable h' j = readable h j).
Proof.
  intros h i b pos len H Hs Hn Hh Hv Hpos Hlen Hpl.
  pose proof (held_act _ _ _ _ H Hh) as Ha. pose proof (inv_lt _ _ _ _ H Ha) as Hin.
  destruct (view_ok _ _ _ _ H Hs Ha) as (d & Hvd & Hzl & Hby & Hown & Hwfb).
  assert (Eb : b = set_dat (st (hp h i)) d) by (unfold view in Hv; rewrite Hvd in Hv; cbn in Hv; congruence).
  assert (Eal : alloc b = alloc (st (hp h i))) by now rewrite Eb.
  pose proof (i_sb _ _ _ H i Ha) as Hsb. cbv zeta in Hsb.
  destruct (i_root _ _ _ H i Ha) as (Hra & Hrp & Hrl). destruct (i_rng _ _ _ H i Ha) as [Hb0 Hb1].
  unfold derive. replace (SSHBUF_SIZE_MAX <? len) with false by lia.
  rewrite (i_live _ _ _ H i), Ha. cbn [orb negb].
  rewrite (inv_sane _ _ _ _ H Hs Ha). cbn [negb].
  set (c1 := set_st (hp h i) (set_ref (st (hp h i)) (refcount (st (hp h i)) + 1))).
  set (h1 := upd h i c1).
  set (child := mkCell (mkSbuf [] 0 len len len true 1) (root (hp h i)) (base (hp h i) + pos) (Some i) true true).
  set (n := hn h) in *.
  eexists. split; [reflexivity|]. set (h' := alloc_cell h1 child).
  assert (Hne : i <> n) by lia.
  assert (Pn : hp h' n = child). { unfold h', alloc_cell. cbn [hp]. unfold h1, upd. cbn [hn]. fold n. now rewrite Nat.eqb_refl. }
  assert (Pi : hp h' i = c1).
  { unfold h', alloc_cell. cbn [hp]. unfold h1 at 1, upd. cbn [hn]. fold n.
    destruct (Nat.eqb i n) eqn:E; [apply Nat.eqb_eq in E; congruence|]. unfold h1. apply upd_same. }
  assert (Pj : forall j, j <> n -> j <> i -> hp h' j = hp h j).
  { intros j J1 J2. unfold h', alloc_cell. cbn [hp]. unfold h1 at 1, upd. cbn [hn]. fold n.
    destruct (Nat.eqb j n) eqn:E; [apply Nat.eqb_eq in E; congruence|]. unfold h1. now apply upd_other. }
  assert (Hn' : hn h' = S n) by reflexivity.
  pose proof (ref_bounds _ _ _ _ H Hs Ha) as HR.
  assert (Ac1 : act c1 = true) by (unfold act, c1; cbn; lia).
  assert (Acn : act child = true) by reflexivity.
  assert (Hdeadn : hp h n = dead) by (apply (i_out _ _ _ H); lia).
  assert (Hact : forall j, j <> n -> act (hp h' j) = act (hp h j)).
  { intros j J. destruct (Nat.eq_dec j i) as [->|]; [rewrite Pi, Ac1; congruence|now rewrite Pj]. }
  assert (Fj : forall j, j <> n -> par (hp h' j) = par (hp h j) /\ root (hp h' j) = root (hp h j) /\ base (hp h' j) = base (hp h j) /\
      held (hp h' j) = held (hp h j) /\ live (hp h' j) = live (hp h j) /\
      dat (st (hp h' j)) = dat (st (hp h j)) /\ alloc (st (hp h' j)) = alloc (st (hp h j)) /\
      off (st (hp h' j)) = off (st (hp h j)) /\ size (st (hp h' j)) = size (st (hp h j)) /\
      max_size (st (hp h' j)) = max_size (st (hp h j)) /\ readonly (st (hp h' j)) = readonly (st (hp h j))).
  { intros j J. destruct (Nat.eq_dec j i) as [->|]; [rewrite Pi; unfold c1; cbn; auto 15|rewrite Pj by assumption; auto 15]. }
  assert (Hactn : forall j, act (hp h j) = true -> j <> n).
  { intros j Hj ->. rewrite Hdeadn in Hj. discriminate. }
  assert (Hrootn : forall j, act (hp h j) = true -> root (hp h j) <> n).
  { intros j Hj. destruct (i_root _ _ _ H j Hj) as (_ & _ & Hl). pose proof (inv_lt _ _ _ _ H Hj). fold n in H0. lia. }
  assert (Hcnt : forall j, cnt h' j = (cnt h j + if Nat.eqb j i then 1 else 0)%nat).
  { intros j. unfold cnt. rewrite Hn'. cbn [count]. rewrite Pn. unfold is_par at 1. rewrite Acn. cbn [par child andb].
    fold n. assert (E : count (fun k => is_par (hp h' k) j) n = count (fun k => is_par (hp h k) j) n).
    { apply count_ext. intros k Hk. unfold is_par. destruct (Fj k ltac:(lia)) as (-> & _). rewrite Hact by lia. reflexivity. }
    rewrite E. rewrite (Nat.eqb_sym i j). destruct (Nat.eqb j i); lia. }
  assert (HI : inv h' None none_dead).
  { split.
    - intros j Hj. rewrite Hn' in Hj. rewrite Pj by lia. apply (i_out _ _ _ H). fold n. lia.
    - intros j. destruct (Nat.eq_dec j n) as [->|J]; [now rewrite Pn|].
      destruct (Fj j J) as (_ & _ & _ & _ & -> & _). rewrite Hact by assumption. apply (i_live _ _ _ H).
    - intros j Hj. discriminate.
    - intros j. destruct (Nat.eq_dec j n) as [->|J]; [rewrite Pn; discriminate|].
      destruct (Fj j J) as (_ & _ & _ & -> & _). rewrite Hact by assumption. apply (i_held _ _ _ H).
    - intros j. rewrite Hcnt. destruct (Nat.eq_dec j n) as [->|J].
      + rewrite Pn. intros _. cbn [st child refcount held b2z pendz].
        destruct (Nat.eqb n i) eqn:E; [apply Nat.eqb_eq in E; congruence|].
        assert (cnt h n = 0)%nat as ->; [|reflexivity].
        destruct (cnt h n) eqn:Ec; [reflexivity|]. exfalso.
        assert (Hz : forall k, (k < n)%nat -> is_par (hp h k) n = false).
        { intros k Hk. unfold is_par. destruct (act (hp h k)) eqn:Hk'; [|reflexivity]. cbn.
          destruct (par (hp h k)) as [p|] eqn:Ep; [|reflexivity]. destruct (i_par _ _ _ H k p Hk' Ep) as (Hlt & _).
          destruct (Nat.eqb p n) eqn:E2; [apply Nat.eqb_eq in E2; lia|reflexivity]. }
        unfold cnt in Ec. fold n in Ec. rewrite (count_ext _ (fun _ => false)) in Ec by (intros; now apply Hz).
        clear - Ec. assert (forall m, count (fun _ => false) m = 0%nat) by (induction m; cbn; auto). rewrite H in Ec. discriminate.
      + destruct (Fj j J) as (_ & _ & _ & -> & _). rewrite Hact by assumption. intros Hj.
        pose proof (i_ref _ _ _ H j Hj) as R. destruct (Nat.eq_dec j i) as [->|Ji].
        * rewrite Pi, Nat.eqb_refl. unfold c1. cbn [st set_st set_ref refcount]. cbn [pendz] in *. lia.
        * rewrite Pj by assumption. destruct (Nat.eqb j i) eqn:E; [apply Nat.eqb_eq in E; congruence|]. cbn [pendz] in *. lia.
    - intros j p. destruct (Nat.eq_dec j n) as [->|J].
      + rewrite Pn. cbn [par child root st readonly]. intros _ E. inversion E; subst p. rewrite Pi. splits; auto.
      + destruct (Fj j J) as (-> & -> & _ & _ & _ & _ & _ & _ & _ & _ & ->). rewrite Hact by assumption. intros Hj Hp.
        destruct (i_par _ _ _ H j p Hj Hp) as (P1 & P2 & P3 & P4). assert (Jp : p <> n) by (apply Hactn; assumption).
        rewrite Hact by assumption. destruct (Fj p Jp) as (_ & -> & _). auto.
    - intros j. destruct (Nat.eq_dec j n) as [->|J]; [rewrite Pn; discriminate|].
      destruct (Fj j J) as (-> & -> & -> & _). rewrite Hact by assumption. apply (i_top _ _ _ H).
    - intros j. destruct (Nat.eq_dec j n) as [->|J].
      + rewrite Pn. cbn [root child]. intros _. assert (Jr : root (hp h i) <> n) by auto.
        rewrite Hact by assumption. destruct (Fj _ Jr) as (-> & _). splits; auto. lia.
      + destruct (Fj j J) as (_ & -> & _). rewrite Hact by assumption. intros Hj.
        assert (Jr : root (hp h j) <> n) by auto. rewrite Hact by assumption. destruct (Fj _ Jr) as (-> & _).
        now apply (i_root _ _ _ H).
    - intros j. destruct (Nat.eq_dec j n) as [->|J].
      + rewrite Pn. cbn [root child base st alloc]. intros _. assert (Jr : root (hp h i) <> n) by auto.
        destruct (Fj _ Jr) as (_ & _ & _ & _ & _ & -> & _). lia.
      + destruct (Fj j J) as (_ & -> & -> & _ & _ & _ & -> & _). rewrite Hact by assumption. intros Hj.
        assert (Jr : root (hp h j) <> n) by auto. destruct (Fj _ Jr) as (_ & _ & _ & _ & _ & -> & _). now apply (i_rng _ _ _ H).
    - intros j. destruct (Nat.eq_dec j n) as [->|J]; [rewrite Pn; discriminate|].
      destruct (Fj j J) as (-> & _ & _ & _ & _ & -> & -> & _). rewrite Hact by assumption. apply (i_own _ _ _ H).
    - intros j. destruct (Nat.eq_dec j n) as [->|J].
      + rewrite Pn. intros _. cbn. lia.
      + destruct (Fj j J) as (_ & _ & _ & _ & _ & _ & F1 & F2 & F3 & F4 & _). cbv zeta. rewrite F1, F2, F3, F4, Hact by assumption.
        apply (i_sb _ _ _ H).
    - intros j. destruct (Nat.eq_dec j n) as [->|J]; [rewrite Pn; right; reflexivity|].
      destruct (Fj j J) as (_ & _ & _ & _ & _ & _ & _ & _ & _ & -> & ->). rewrite Hact by assumption. apply (i_lim _ _ _ H). }
  splits; auto.
  - intros j. destruct (Nat.eq_dec j n) as [->|J1]; [rewrite Pn; cbn; unfold SSHBUF_REFS_MAX; lia|].
    destruct (Nat.eq_dec j i) as [->|J2]; [rewrite Pi; unfold c1; cbn [set_st set_ref st refcount]; lia|rewrite Pj by assumption; apply Hs].
  - rewrite Pn. reflexivity.
  - rewrite Pn. reflexivity.
  - unfold readable, view, view_dat. rewrite Pn. cbn [root child live base st alloc].
    assert (Jr : root (hp h i) <> n) by auto. destruct (Fj _ Jr) as (_ & _ & _ & _ & -> & -> & _).
    rewrite (i_live _ _ _ H), Hra. cbn [orb andb].
    destruct (Nat.eqb (root (hp h i)) n) eqn:E; [apply Nat.eqb_eq in E; congruence|].
    destruct (_ <=? _) eqn:El; [|lia]. cbn [option_map]. f_equal.
    unfold contents. cbn [set_dat off size dat]. rewrite Z.sub_0_r, zdrop_0.
    assert (Hdd : dat b = d) by now rewrite Eb. rewrite Hdd.
    rewrite ztake_all by (rewrite zlen_ztake; [lia|]; rewrite zlen_zdrop by lia; lia).
    unfold view_dat in Hvd. rewrite (i_live _ _ _ H i), Ha, (i_live _ _ _ H (root (hp h i))), Hra in Hvd. cbn [orb andb] in Hvd.
    destruct (Nat.eqb (root (hp h i)) i) eqn:Er.
    + apply Nat.eqb_eq in Er. inversion Hvd as [Hd]. rewrite Hd. rewrite Er, Hd.
      assert (base (hp h i) = 0) as ->; [|reflexivity].
      apply (i_top _ _ _ H i Ha). apply (root_self _ _ _ _ H Ha). assumption.
    + destruct (_ <=? _) eqn:E2 in Hvd; [|discriminate]. inversion Hvd as [Hd].
      set (R := dat (st (hp h (root (hp h i))))) in *.
      replace (alloc (st (hp h i))) with ((alloc (st (hp h i)) - pos) + pos) by lia.
      rewrite ztake_zdrop_comm by lia. rewrite zdrop_zdrop by lia. rewrite ztake_ztake by lia.
      f_equal. f_equal. lia.
  - intros j J. destruct (Fj j J) as (F0 & F1 & F2 & F3 & F4 & F5 & F6 & F7 & F8 & F9 & F10).
    splits; auto. unfold readable, view, view_dat. rewrite F1, F4, F5, F6, F2.
    destruct (live (hp h j)) eqn:Lj; [|reflexivity].
    assert (Aj : act (hp h j) = true) by (rewrite (i_live _ _ _ H) in Lj; rewrite orb_false_r in Lj; exact Lj).
    assert (Jr : root (hp h j) <> n) by auto.
    destruct (Fj _ Jr) as (_ & _ & _ & _ & -> & -> & _).
    destruct (true && _); [|reflexivity].
    destruct (Nat.eqb _ _).
    + cbn [option_map]. unfold contents. cbn [set_dat off size dat]. now rewrite F7, F8.
    + destruct (_ <=? _); [|reflexivity]. cbn [option_map]. unfold contents. cbn [set_dat off size dat]. now rewrite F7, F8.
Qed.

(** ** Freeing *)
Definition same_but_ref (c c' : cell) : Prop :=
  par c' = par c /\ root c' = root c /\ base c' = base c /\
  dat (st c') = dat (st c) /\ alloc (st c') = alloc (st c) /\ off (st c') = off (st c) /\ size (st c') = size (st c) /\
  max_size (st c') = max_size (st c) /\ readonly (st c') = readonly (st c).
Lemma sbr_refl : forall c, same_but_ref c c.
Proof. intros. unfold same_but_ref. auto 12. Qed.
Lemma sbr_trans : forall a b c, same_but_ref a b -> same_but_ref b c -> same_but_ref a c.
Proof.
  intros a b c (A1&A2&A3&A4&A5&A6&A7&A8&A9) (B1&B2&B3&B4&B5&B6&B7&B8&B9). unfold same_but_ref. splits; congruence.
Qed.

Lemma free_ok : forall fuel h i D, (i < fuel)%nat -> inv h (Some i) D -> small h -> act (hp h i) = true ->
  exists h', sshbuf_free fuel h i = HRet true h' /\ inv h' None D /\ hn h' = hn h /\
    (forall j, held (hp h' j) = held (hp h j)) /\
    (forall j, live (hp h j) = false -> live (hp h' j) = false) /\
    (forall j, same_but_ref (hp h j) (hp h' j)) /\
    (forall j, refcount (st (hp h' j)) <= refcount (st (hp h j))).
Proof.
  induction fuel as [|f IH]; intros h i D Hf H Hs Ha; [lia|].
  pose proof (ref_bounds _ _ _ _ H Hs Ha) as HR.
  cbn [sshbuf_free]. rewrite (i_live _ _ _ H i), Ha. cbn [orb negb].
  rewrite (inv_sane _ _ _ _ H Hs Ha). cbn [negb].
  set (c1 := set_st (hp h i) (set_ref (st (hp h i)) (refcount (st (hp h i)) - 1))).
  set (h1 := upd h i c1).
  assert (P1 : hp h1 i = c1) by apply upd_same.
  assert (Pj : forall j, j <> i -> hp h1 j = hp h j) by (intros; now apply upd_other).
  assert (SB : forall j, same_but_ref (hp h j) (hp h1 j)).
  { intros j. destruct (Nat.eq_dec j i) as [->|]; [rewrite P1|rewrite Pj by assumption; apply sbr_refl].
    unfold same_but_ref, c1. cbn. auto 12. }
  assert (HH : forall j, held (hp h1 j) = held (hp h j)).
  { intros j. destruct (Nat.eq_dec j i) as [->|]; [rewrite P1; reflexivity|now rewrite Pj]. }
  assert (HL : forall j, live (hp h1 j) = live (hp h j)).
  { intros j. destruct (Nat.eq_dec j i) as [->|]; [rewrite P1; reflexivity|now rewrite Pj]. }
  assert (Hrc : refcount (st c1) = refcount (st (hp h i)) - 1) by reflexivity.
  assert (HRle : forall j, refcount (st (hp h1 j)) <= refcount (st (hp h j))).
  { intros j. destruct (Nat.eq_dec j i) as [->|]; [rewrite P1, Hrc; lia|rewrite Pj by assumption; lia]. }
  assert (Hs1 : small h1) by (intros j; specialize (HRle j); specialize (Hs j); lia).
  pose proof (i_ref _ _ _ H i Ha) as Href. cbn [pendz] in Href. rewrite Nat.eqb_refl in Href. cbn [b2z] in Href.
  destruct (0 <? refcount (st c1)) eqn:E0.
  - (* still referenced *)
    assert (Ac : forall j, act (hp h1 j) = act (hp h j)).
    { intros j. destruct (Nat.eq_dec j i) as [->|]; [rewrite P1; unfold act at 1; rewrite E0; congruence|now rewrite Pj]. }
    assert (Hcnt : forall j, cnt h1 j = cnt h j).
    { intros j. apply cnt_same; [reflexivity|]. intros k. unfold is_par. rewrite Ac. destruct (SB k) as (-> & _). reflexivity. }
    exists h1. splits; auto; [|intros; rewrite HL; assumption].
    split.
    + intros j Hj. cbn in Hj. assert (j <> i) by (pose proof (inv_lt _ _ _ _ H Ha); lia). rewrite Pj by assumption. now apply (i_out _ _ _ H).
    + intros j. rewrite HL, Ac. apply (i_live _ _ _ H).
    + intros j. rewrite Ac. apply (i_D _ _ _ H).
    + intros j. rewrite Ac, HH. apply (i_held _ _ _ H).
    + intros j. rewrite Ac, HH, Hcnt. intros Hj. destruct (Nat.eq_dec j i) as [->|Ji].
      * rewrite P1. cbn [pendz]. lia.
      * rewrite Pj by assumption. pose proof (i_ref _ _ _ H j Hj) as R. cbn [pendz] in R.
        destruct (Nat.eqb i j) eqn:E; [apply Nat.eqb_eq in E; congruence|]. exact R.
    + intros j p. rewrite !Ac. destruct (SB j) as (-> & -> & _ & _ & _ & _ & _ & _ & ->).
      destruct (SB p) as (_ & -> & _). apply (i_par _ _ _ H).
    + intros j. rewrite Ac. destruct (SB j) as (-> & -> & -> & _). apply (i_top _ _ _ H).
    + intros j. destruct (SB j) as (_ & -> & _). rewrite !Ac. destruct (SB (root (hp h j))) as (-> & _). apply (i_root _ _ _ H).
    + intros j. rewrite Ac. destruct (SB j) as (_ & -> & -> & _ & -> & _).
      destruct (SB (root (hp h j))) as (_ & _ & _ & -> & _). apply (i_rng _ _ _ H).
    + intros j. rewrite Ac. destruct (SB j) as (-> & _ & _ & -> & -> & _). apply (i_own _ _ _ H).
    + intros j. rewrite Ac. destruct (SB j) as (_ & _ & _ & _ & F1 & F2 & F3 & F4 & _). cbv zeta. rewrite F1, F2, F3, F4. apply (i_sb _ _ _ H).
    + intros j. rewrite Ac. destruct (SB j) as (_ & _ & _ & _ & _ & _ & _ & -> & ->). apply (i_lim _ _ _ H).
  - (* last reference *)
    assert (Hz : refcount (st (hp h i)) = 1) by lia.
    assert (Hheld0 : held (hp h i) = false) by (destruct (held (hp h i)); cbn [b2z] in Href; [lia|reflexivity]).
    assert (Hcnt0 : cnt h i = 0%nat) by (rewrite Hheld0 in Href; cbn [b2z] in Href; lia).
    assert (Hnochild : forall k, act (hp h k) = true -> par (hp h k) <> Some i).
    { intros k Hk Hp. pose proof (child_cnt _ _ _ _ _ H Hk Hp). lia. }
    assert (Hnoroot : forall j, act (hp h j) = true -> j <> i -> root (hp h j) <> i).
    { intros j Hj Hne Hr. destruct (root_has_child _ _ _ _ H j Hj Hr Hne) as (k & Hk & Hp). exact (Hnochild k Hk Hp). }
    assert (Ai : act (hp h1 i) = false) by (rewrite P1; unfold act; exact E0).
    assert (Ac : forall j, act (hp h1 j) = true -> j <> i /\ act (hp h j) = true).
    { intros j Hj. assert (j <> i) by (intros ->; congruence). rewrite Pj in Hj by assumption. auto. }
    assert (Ac' : forall j, j <> i -> act (hp h1 j) = act (hp h j)) by (intros; now rewrite Pj).
    set (D' := fun j => Nat.eqb j i || D j).
    assert (Di : D i = false) by (destruct (D i) eqn:E; [rewrite (i_D _ _ _ H i E) in Ha; discriminate|reflexivity]).
    assert (Hi1 : inv h1 (par (hp h i)) D').
    { split.
      + intros j Hj. cbn in Hj. assert (j <> i) by (pose proof (inv_lt _ _ _ _ H Ha); lia). rewrite Pj by assumption. now apply (i_out _ _ _ H).
      + intros j. rewrite HL. unfold D'. destruct (Nat.eq_dec j i) as [->|Ji].
        * rewrite Nat.eqb_refl, (i_live _ _ _ H), Ha. cbn [orb]. now rewrite orb_true_r.
        * destruct (Nat.eqb j i) eqn:E; [apply Nat.eqb_eq in E; congruence|]. cbn [orb]. rewrite Ac' by assumption. apply (i_live _ _ _ H).
      + intros j. unfold D'. destruct (Nat.eq_dec j i) as [->|Ji]; [auto|].
        destruct (Nat.eqb j i) eqn:E; [apply Nat.eqb_eq in E; congruence|]. cbn [orb]. rewrite Ac' by assumption. apply (i_D _ _ _ H).
      + intros j. rewrite HH. destruct (Nat.eq_dec j i) as [->|Ji]; [auto|]. rewrite Ac' by assumption. apply (i_held _ _ _ H).
      + intros j Hj. destruct (Ac j Hj) as [Ji Hj']. rewrite Pj by assumption.
        pose proof (i_ref _ _ _ H j Hj') as R. cbn [pendz] in R.
        destruct (Nat.eqb i j) eqn:E; [apply Nat.eqb_eq in E; congruence|]. cbn [b2z] in R.
        assert (HC : Z.of_nat (cnt h j) = Z.of_nat (cnt h1 j) + pendz (par (hp h i)) j).
        { destruct (par (hp h i)) as [p|] eqn:Ep; cbn [pendz].
          - destruct (Nat.eqb p j) eqn:Epj.
            + assert (cnt h j = S (cnt h1 j)); [|cbn [b2z]; lia].
              unfold cnt. cbn [hn h1 upd]. apply (count_flip _ _ _ i).
              * eapply inv_lt; eauto.
              * unfold is_par. now rewrite Ha, Ep.
              * unfold is_par. now rewrite Ai.
              * intros k Hk. now rewrite Pj.
            + assert (cnt h j = cnt h1 j); [|cbn [b2z]; lia].
              unfold cnt. cbn [hn h1 upd]. apply count_ext. intros k _. destruct (Nat.eq_dec k i) as [->|]; [|now rewrite Pj].
              unfold is_par. rewrite Ai, Ep, Epj. now rewrite andb_false_r.
          - assert (cnt h j = cnt h1 j); [|lia].
            unfold cnt. cbn [hn h1 upd]. apply count_ext. intros k _. destruct (Nat.eq_dec k i) as [->|]; [|now rewrite Pj].
            unfold is_par. rewrite Ai, Ep. now rewrite andb_false_r. }
        lia.
      + intros j p Hj Hp. destruct (Ac j Hj) as [Ji Hj']. rewrite (Pj j Ji) in Hp |- *.
        destruct (i_par _ _ _ H j p Hj' Hp) as (Q1 & Q2 & Q3 & Q4).
        assert (Jp : p <> i) by (intros ->; exact (Hnochild j Hj' Hp)). rewrite (Pj p Jp). auto.
      + intros j Hj. destruct (Ac j Hj) as [Ji Hj']. rewrite Pj by assumption. now apply (i_top _ _ _ H).
      + intros j Hj. destruct (Ac j Hj) as [Ji Hj']. rewrite (Pj j) by assumption.
        pose proof (Hnoroot j Hj' Ji) as Jr. rewrite Pj by assumption. now apply (i_root _ _ _ H).
      + intros j Hj. destruct (Ac j Hj) as [Ji Hj']. rewrite (Pj j) by assumption.
        pose proof (Hnoroot j Hj' Ji) as Jr. rewrite Pj by assumption. now apply (i_rng _ _ _ H).
      + intros j Hj. destruct (Ac j Hj) as [Ji Hj']. rewrite (Pj j) by assumption. now apply (i_own _ _ _ H).
      + intros j Hj. destruct (Ac j Hj) as [Ji Hj']. rewrite (Pj j) by assumption. now apply (i_sb _ _ _ H).
      + intros j Hj. destruct (Ac j Hj) as [Ji Hj']. rewrite (Pj j) by assumption. now apply (i_lim _ _ _ H). }
    assert (Hrec : exists b2 h2, (match par (hp h i) with None => HRet true h1 | Some p => sshbuf_free f h1 p end) = HRet b2 h2 /\
      inv h2 None D' /\ hn h2 = hn h1 /\ (forall j, held (hp h2 j) = held (hp h1 j)) /\
      (forall j, live (hp h1 j) = false -> live (hp h2 j) = false) /\ (forall j, same_but_ref (hp h1 j) (hp h2 j)) /\
      (forall j, refcount (st (hp h2 j)) <= refcount (st (hp h1 j)))).
    { destruct (par (hp h i)) as [p|] eqn:Ep.
      - destruct (i_par _ _ _ H i p Ha Ep) as (Hlt & Hpa & _).
        destruct (IH h1 p D') as (h2 & E2 & R2); auto; [lia|rewrite Ac' by lia; assumption|].
        exists true, h2. split; [exact E2|exact R2].
      - exists true, h1. splits; auto; intros; [apply sbr_refl|lia]. }
    destruct Hrec as (b2 & h2 & -> & Hi2 & Hn2 & HH2 & HL2 & SB2 & HR2).
    assert (A2 : act (hp h2 i) = false) by (apply (i_D _ _ _ Hi2); unfold D'; now rewrite Nat.eqb_refl).
    assert (L2 : live (hp h2 i) = true).
    { rewrite (i_live _ _ _ Hi2), A2. unfold D'. now rewrite Nat.eqb_refl. }
    rewrite L2. cbn [negb].
    set (h3 := upd h2 i (set_live (hp h2 i) false)).
    assert (P3 : hp h3 i = set_live (hp h2 i) false) by apply upd_same.
    assert (Pj3 : forall j, j <> i -> hp h3 j = hp h2 j) by (intros; now apply upd_other).
    assert (A3 : forall j, act (hp h3 j) = act (hp h2 j)).
    { intros j. destruct (Nat.eq_dec j i) as [->|]; [now rewrite P3|now rewrite Pj3]. }
    assert (S3 : forall j, same_but_ref (hp h2 j) (hp h3 j)).
    { intros j. destruct (Nat.eq_dec j i) as [->|]; [rewrite P3; unfold same_but_ref; cbn; auto 12|rewrite Pj3 by assumption; apply sbr_refl]. }
    assert (R3 : forall j, refcount (st (hp h3 j)) = refcount (st (hp h2 j))).
    { intros j. destruct (Nat.eq_dec j i) as [->|]; [now rewrite P3|now rewrite Pj3]. }
    assert (H3 : forall j, held (hp h3 j) = held (hp h2 j)).
    { intros j. destruct (Nat.eq_dec j i) as [->|]; [now rewrite P3|now rewrite Pj3]. }
    assert (Hcnt3 : forall j, cnt h3 j = cnt h2 j).
    { intros j. apply cnt_same; [reflexivity|]. intros k. unfold is_par. rewrite A3. destruct (S3 k) as (-> & _). reflexivity. }
    exists h3. splits; auto.
    + split.
      * intros j Hj. cbn in Hj. rewrite Hn2 in Hj. cbn in Hj. assert (j <> i) by (pose proof (inv_lt _ _ _ _ H Ha); lia).
        rewrite Pj3 by assumption. apply (i_out _ _ _ Hi2). rewrite Hn2. exact Hj.
      * intros j. rewrite A3. destruct (Nat.eq_dec j i) as [->|Ji].
        -- rewrite P3, A2, Di. reflexivity.
        -- rewrite Pj3 by assumption. rewrite (i_live _ _ _ Hi2). unfold D'.
           destruct (Nat.eqb j i) eqn:E; [apply Nat.eqb_eq in E; congruence|]. reflexivity.
      * intros j Hj. rewrite A3. apply (i_D _ _ _ Hi2). unfold D'. now rewrite Hj, orb_true_r.
      * intros j. rewrite A3, H3. apply (i_held _ _ _ Hi2).
      * intros j. rewrite A3, H3, R3, Hcnt3. apply (i_ref _ _ _ Hi2).
      * intros j p. rewrite !A3. destruct (S3 j) as (-> & -> & _ & _ & _ & _ & _ & _ & ->).
        destruct (S3 p) as (_ & -> & _). apply (i_par _ _ _ Hi2).
      * intros j. rewrite A3. destruct (S3 j) as (-> & -> & -> & _). apply (i_top _ _ _ Hi2).
      * intros j. destruct (S3 j) as (_ & -> & _). rewrite !A3. destruct (S3 (root (hp h2 j))) as (-> & _). apply (i_root _ _ _ Hi2).
      * intros j. rewrite A3. destruct (S3 j) as (_ & -> & -> & _ & -> & _).
        destruct (S3 (root (hp h2 j))) as (_ & _ & _ & -> & _). apply (i_rng _ _ _ Hi2).
      * intros j. rewrite A3. destruct (S3 j) as (-> & _ & _ & -> & -> & _). apply (i_own _ _ _ Hi2).
      * intros j. rewrite A3. destruct (S3 j) as (_ & _ & _ & _ & F1 & F2 & F3 & F4 & _). cbv zeta. rewrite F1, F2, F3, F4. apply (i_sb _ _ _ Hi2).
      * intros j. rewrite A3. destruct (S3 j) as (_ & _ & _ & _ & _ & _ & _ & -> & ->). apply (i_lim _ _ _ Hi2).
    + intros j. now rewrite H3, HH2, HH.
    + intros j Hj. destruct (Nat.eq_dec j i) as [->|Ji]; [now rewrite P3|]. rewrite Pj3 by assumption. apply HL2. now rewrite HL.
    + intros j. eapply sbr_trans; [apply SB|]. eapply sbr_trans; [apply SB2|apply S3].
    + intros j. rewrite R3. specialize (HR2 j). specialize (HRle j). lia.
Qed.

(** ** One call of the program *)
Definition others_keep (h h' : heap) (i : option nat) : Prop :=
  forall j, Some j <> i -> held (hp h j) = true -> held (hp h' j) = true /\ readable h' j = readable h j.
Definition no_revival (h h' : heap) : Prop :=
  forall j, (j < hn h)%nat -> live (hp h j) = false -> live (hp h' j) = false.

Lemma on_buf_keeps : forall h i c' b', inv h None none_dead -> inv (upd h i c') None none_dead ->
  held c' = true -> view (upd h i c') i = Some b' -> act (hp h i) = true ->
  (forall j, j <> i -> act (hp h j) = true -> view (upd h i c') j = view h j) ->
  others_keep h (upd h i c') (Some i) /\ no_revival h (upd h i c').
Proof.
  intros h i c' b' H H' Hh Hv Ha Hj. split.
  - intros j Jn Hhj. assert (Ji : j <> i) by congruence. rewrite upd_other by assumption. split; [assumption|].
    unfold readable. rewrite Hj; auto. eapply held_act; eauto.
  - intros j _ Hl. destruct (Nat.eq_dec j i) as [->|Ji]; [|now rewrite upd_other].
    rewrite (i_live _ _ _ H), Ha in Hl. discriminate.
Qed.

Lemma top_inv : forall h c, inv h None none_dead -> live c = true -> held c = true -> par c = None -> root c = hn h -> base c = 0 ->
  refcount (st c) = 1 -> zlen (dat (st c)) = alloc (st c) -> is_bytes (dat (st c)) ->
  (let s := st c in 0 <= off s <= size s /\ size s <= alloc s /\ alloc s <= max_size s <= SSHBUF_SIZE_MAX) ->
  (SSHBUF_SIZE_INIT <= max_size (st c) \/ readonly (st c) = true) ->
  inv (alloc_cell h c) None none_dead /\ others_keep h (alloc_cell h c) None /\ no_revival h (alloc_cell h c).
Proof.
  intros h c H Hl Hh Hp Hr Hb Hrc Hz Hby Hsb Hlim. set (n := hn h) in *. set (h' := alloc_cell h c).
  assert (Pn : hp h' n = c) by (unfold h', alloc_cell; cbn; fold n; now rewrite Nat.eqb_refl).
  assert (Pj : forall j, j <> n -> hp h' j = hp h j).
  { intros j J. unfold h', alloc_cell; cbn; fold n. destruct (Nat.eqb j n) eqn:E; [apply Nat.eqb_eq in E; congruence|reflexivity]. }
  assert (An : act c = true) by (unfold act; rewrite Hrc; reflexivity).
  assert (Hdeadn : hp h n = dead) by (apply (i_out _ _ _ H); unfold n; lia).
  assert (Hactn : forall j, act (hp h j) = true -> j <> n) by (intros j Hj ->; rewrite Hdeadn in Hj; discriminate).
  assert (Hrootn : forall j, act (hp h j) = true -> root (hp h j) <> n).
  { intros j Hj. destruct (i_root _ _ _ H j Hj) as (_ & _ & Hle). pose proof (inv_lt _ _ _ _ H Hj). fold n in H0. lia. }
  assert (Hcnt : forall j, j <> n -> cnt h' j = cnt h j).
  { intros j J. unfold cnt. cbn [hn h' alloc_cell]. cbn [count]. fold n. rewrite Pn. unfold is_par at 1. rewrite Hp, andb_false_r. cbn [Nat.add].
    apply count_ext. intros k Hk. now rewrite Pj by lia. }
  assert (Hcntn : cnt h' n = 0%nat).
  { unfold cnt. cbn [hn h' alloc_cell]. cbn [count]. fold n. rewrite Pn. unfold is_par at 1. rewrite Hp, andb_false_r. cbn [Nat.add].
    rewrite (count_ext _ (fun _ => false)).
    - clear. induction n; cbn; auto.
    - intros k Hk. rewrite Pj by lia. unfold is_par. destruct (act (hp h k)) eqn:Hk'; [|reflexivity]. cbn.
      destruct (par (hp h k)) as [p|] eqn:Ep; [|reflexivity]. destruct (i_par _ _ _ H k p Hk' Ep) as (Hlt & _).
      destruct (Nat.eqb p n) eqn:E2; [apply Nat.eqb_eq in E2; lia|reflexivity]. }
  assert (HI : inv h' None none_dead).
  { split.
    - intros j Hj. cbn in Hj. fold n in Hj. rewrite Pj by lia. apply (i_out _ _ _ H). fold n. lia.
    - intros j. destruct (Nat.eq_dec j n) as [->|J]; [rewrite Pn, An, Hl; reflexivity|rewrite Pj by assumption; apply (i_live _ _ _ H)].
    - intros j Hj. discriminate.
    - intros j. destruct (Nat.eq_dec j n) as [->|J]; [rewrite Pn, An; discriminate|rewrite Pj by assumption; apply (i_held _ _ _ H)].
    - intros j. destruct (Nat.eq_dec j n) as [->|J].
      + rewrite Pn, Hcntn, Hh, Hrc. reflexivity.
      + rewrite Pj, Hcnt by assumption. apply (i_ref _ _ _ H).
    - intros j p. destruct (Nat.eq_dec j n) as [->|J]; [rewrite Pn, Hp; discriminate|]. rewrite Pj by assumption. intros Hj Hpj.
      destruct (i_par _ _ _ H j p Hj Hpj) as (P1 & P2 & P3 & P4). rewrite (Pj p) by (apply Hactn; assumption). auto.
    - intros j. destruct (Nat.eq_dec j n) as [->|J]; [rewrite Pn; auto|rewrite Pj by assumption; apply (i_top _ _ _ H)].
    - intros j. destruct (Nat.eq_dec j n) as [->|J].
      + rewrite Pn, Hr, Pn. auto.
      + rewrite (Pj j) by assumption. intros Hj. rewrite (Pj (root _)) by auto. now apply (i_root _ _ _ H).
    - intros j. destruct (Nat.eq_dec j n) as [->|J].
      + rewrite Pn, Hr, Pn. lia.
      + rewrite (Pj j) by assumption. intros Hj. rewrite (Pj (root _)) by auto. now apply (i_rng _ _ _ H).
    - intros j. destruct (Nat.eq_dec j n) as [->|J]; [rewrite Pn; auto|rewrite Pj by assumption; apply (i_own _ _ _ H)].
    - intros j. destruct (Nat.eq_dec j n) as [->|J]; [rewrite Pn; auto|rewrite Pj by assumption; apply (i_sb _ _ _ H)].
    - intros j. destruct (Nat.eq_dec j n) as [->|J]; [rewrite Pn; auto|rewrite Pj by assumption; apply (i_lim _ _ _ H)]. }
  splits; auto.
  - intros j _ Hhj. pose proof (held_act _ _ _ _ H Hhj) as Hj. assert (J : j <> n) by auto.
    rewrite Pj by assumption. split; [assumption|].
    unfold readable, view, view_dat. rewrite (Pj j), (Pj (root (hp h j))) by auto. reflexivity.
  - intros j Hjn Hl'. rewrite Pj by (fold n in Hjn; lia). assumption.
Qed.

Lemma small_alloc : forall h c, small h -> refcount (st c) = 1 -> small (alloc_cell h c).
Proof.
  intros h c Hs Hc j. unfold alloc_cell. cbn [hp]. destruct (Nat.eqb j (hn h)); [rewrite Hc; unfold SSHBUF_REFS_MAX; lia|apply Hs].
Qed.
Lemma small_upd : forall h i c, small h -> refcount (st c) = refcount (st (hp h i)) -> small (upd h i c).
Proof.
  intros h i c Hs Hc j. unfold upd. cbn [hp]. destruct (Nat.eqb j i); [rewrite Hc; apply Hs|apply Hs].
Qed.
Lemma filter_seq_count : forall f n, length (filter f (seq 0 n)) = count f n.
Proof.
  induction n as [|n IH]; [reflexivity|]. rewrite seq_S, filter_app, app_length. cbn [filter plus count]. rewrite IH.
  destruct (f n); cbn [length]; lia.
Qed.
Lemma room_ref : forall h i, inv h None none_dead -> held (hp h i) = true -> Z.of_nat (children h i) < 1048575 ->
  refcount (st (hp h i)) < SSHBUF_REFS_MAX.
Proof.
  intros h i H Hh Hc. pose proof (held_act _ _ _ _ H Hh) as Ha. rewrite (i_ref _ _ _ H i Ha), Hh. cbn [b2z pendz].
  replace (cnt h i) with (children h i); [unfold SSHBUF_REFS_MAX; lia|].
  unfold children, cnt. rewrite filter_seq_count. apply count_ext. intros k _. unfold is_par.
  now rewrite (i_live _ _ _ H), orb_false_r.
Qed.

Lemma hstep_ok : forall h o, inv h None none_dead -> small h -> hop_ok o -> roomy h o ->
  exists b h', hstep h o = HRet b h' /\ inv h' None none_dead /\ small h' /\ (hn h <= hn h' <= S (hn h))%nat /\
    others_keep h h' (target o) /\ no_revival h h' /\ derived_as h o b h'.
Proof.
  intros h o H Hs Ho Hn.
  assert (KR : others_keep h h (target o) /\ no_revival h h) by (split; unfold others_keep, no_revival; auto).
  destruct KR as [KR1 KR2].
  destruct o; cbn [hstep target].
  - (* new *)
    destruct (top_inv h (mkCell sshbuf_new (hn h) 0 None true true) H) as (I' & K & N); try reflexivity.
    + apply wf_new.
    + cbn. consts. lia.
    + left. cbn. consts. lia.
    + eexists _, _. split; [reflexivity|]. splits; auto; try exact I; try (apply small_alloc; auto; apply Hrc); cbn; lia.
  - (* from *)
    destruct (SshbufModel.sshbuf_from blob) as [b|] eqn:E; [|eexists _, _; split; [reflexivity|]; splits; auto; try exact I; try lia; cbn [derived_as]; rewrite ?Hh; try discriminate; auto].
    destruct (wf_from blob b Ho E) as ([w1 w2 w3 w4 w5 w6] & _ & _).
    assert (Hrc : refcount b = 1 /\ readonly b = true).
    { unfold SshbufModel.sshbuf_from in E. destruct (_ <? _); [discriminate|]. inversion E; subst. auto. }
    destruct (top_inv h (mkCell b (hn h) 0 None true true) H) as (I' & K & N); try reflexivity; cbn; auto; try tauto.
    eexists _, _. split; [reflexivity|]. splits; auto; try exact I; try (apply small_alloc; auto; apply Hrc); cbn; lia.
  - (* fromb *)
    destruct (held (hp h i)) eqn:Hh; cbn [negb]; [|eexists _, _; split; [reflexivity|]; splits; auto; try exact I; try lia; cbn [derived_as]; rewrite ?Hh; try discriminate; auto].
    unfold sshbuf_fromb.
    assert (HP : pres (do p <- sshbuf_ptr ;; do l <- sshbuf_len ;; mret (p, l))) by auto 10 with pres.
    destruct (on_buf_ok _ h i _ (fun h' pl => derive h' i (fst pl) (snd pl)) H Hs Hh HP) as
      (b & r & b' & c' & Hv & Hwf & Em & Hwf' & Hst & Hch & Hcr & Hcb & Hcp & HI & Hrc' & Hvi & Hvj & ->).
    { intros b Hb Hl. unfold mbind. rewrite ptr_ok, len_ok by assumption. unfold mret. eexists _, _. split; [reflexivity|]. auto. }
    unfold mbind in Em. rewrite ptr_ok, len_ok in Em by assumption. unfold mret in Em. inversion Em; subst r b'.
    cbn [fst snd].
    pose proof (contents_len b Hwf) as HL. pose proof Hwf as [w1 w2 w3 w4 w5 w6].
    destruct (derive_ok (upd h i c') i b (off b) (zlen (contents b)) HI (small_upd h i c' Hs Hrc') ltac:(rewrite upd_same, Hrc'; now apply room_ref)) as (h' & -> & I' & Hs'' & N' & NH & _ & NR & K');
      auto; try (rewrite upd_same; assumption); try lia.
    eexists _, _. split; [reflexivity|].
    pose proof (small_upd h i c' Hs Hrc') as Hs'.
    destruct (on_buf_keeps h i c' b H HI Hch Hvi (held_act _ _ _ _ H Hh) Hvj) as [K1 R1].
    cbn in N'. splits; auto; try lia.
    + intros j Jn Hj. destruct (K1 j Jn Hj) as [A B]. pose proof (inv_lt _ _ _ _ HI (held_act _ _ _ _ HI A)) as Hlt. cbn in Hlt.
      destruct (K' j ltac:(cbn; lia)) as (E1 & _ & _ & E2). rewrite E1, E2. auto.
    + intros j Hj Hl. destruct (K' j ltac:(cbn; lia)) as (_ & -> & _). apply R1; auto.
    + intros _. cbn [upd hn] in NH, NR, N'. splits; auto.
      * destruct (K' i) as (-> & _); [pose proof (inv_lt _ _ _ _ H (held_act _ _ _ _ H Hh)); cbn; lia|]. now rewrite upd_same.
      * exists (contents b). unfold readable at 1. rewrite Hv. split; [reflexivity|].
        destruct (K' i) as (_ & _ & _ & ->); [pose proof (inv_lt _ _ _ _ H (held_act _ _ _ _ H Hh)); cbn; lia|].
        unfold readable at 1. rewrite Hvi. split; [reflexivity|]. rewrite NR, HL. reflexivity.
  - (* froms *)
    destruct (held (hp h i)) eqn:Hh; cbn [negb]; [|eexists _, _; split; [reflexivity|]; splits; auto; try exact I; try lia; cbn [derived_as]; rewrite ?Hh; try discriminate; auto].
    unfold sshbuf_froms.
    assert (HP : pres (do pl <- sshbuf_peek_string_direct;; run sshbuf_consume (u64 (snd pl + 4));; mret pl)) by auto 10 with pres.
    assert (HM : forall b, wf b -> match dec_string (contents b) with
       | ROk (v, rest) => exists b', (do pl <- sshbuf_peek_string_direct;; run sshbuf_consume (u64 (snd pl + 4));; mret pl) b =
            Ret (ROk (off b + 4, zlen v)) b' /\ wf b' /\ same_meta b b' /\ off b + 4 + zlen v <= alloc b /\
            contents b' = rest /\ ztake (zlen v) (zdrop (off b + 4) (dat b')) = v
       | RErr e => (do pl <- sshbuf_peek_string_direct;; run sshbuf_consume (u64 (snd pl + 4));; mret pl) b = Ret (RErr e) b
       end).
    { intros b Hb. pose proof (peek_string_ok b Hb) as Hp. unfold mbind. pose proof (contents_len_bound b Hb) as HB.
      pose proof (contents_len b Hb) as HL.
      destruct (dec_string (contents b)) as [[v rest]|e].
      - destruct Hp as (-> & Hsp & Hl & Hvv & Hrr). cbn [snd]. pose proof (zlen_nonneg Z v).
        rewrite u64_id by (destruct Hb; consts; lia).
        pose proof (consume_ok b (zlen v + 4) Hb ltac:(lia)) as Hc.
        replace (zlen v + 4 <=? zlen (contents b)) with true in Hc by lia.
        destruct Hc as (b1 & -> & W & S & HD & HC). unfold mret. eexists. splits; eauto; [destruct Hb; lia|congruence|].
        rewrite HD. rewrite Hvv at 2. unfold contents. destruct Hb. 
        replace (size b - off b) with ((size b - off b - 4) + 4) by lia. rewrite ztake_zdrop_comm by lia.
        rewrite ztake_ztake by lia. rewrite zdrop_zdrop by lia. f_equal. f_equal. lia.
      - now rewrite Hp. }
    destruct (on_buf_ok _ h i _ (fun h' pl => derive h' i (fst pl) (snd pl)) H Hs Hh HP) as
      (b & r & b' & c' & Hv & Hwf & Em & Hwf' & Hst & Hch & Hcr & Hcb & Hcp & HI & Hrc' & Hvi & Hvj & ->).
    { intros b Hb Hl. pose proof (HM b Hb) as HMb. destruct (dec_string (contents b)) as [[v rest]|e].
      - destruct HMb as (b' & E & W & (S1 & S2 & _) & _). eexists _, _. splits; eauto. now rewrite S1, S2.
      - eexists _, _. splits; eauto. }
    pose proof (small_upd h i c' Hs Hrc') as Hs'.
    destruct (on_buf_keeps h i c' b' H HI Hch Hvi (held_act _ _ _ _ H Hh) Hvj) as [K1 R1].
    pose proof (HM b Hwf) as HMb. destruct (dec_string (contents b)) as [[v rest]|e] eqn:Ed.
    2:{ rewrite Em in HMb. inversion HMb; subst. eexists _, _. split; [reflexivity|]. splits; auto; try (cbn; lia).
        intros _. rewrite upd_same. split; [assumption|]. exists (contents b). unfold readable. rewrite Hv, Hvi, Ed. auto. }
    destruct HMb as (b1 & E1 & W1 & S1 & Hal & HC & HV). rewrite E1 in Em. inversion Em; subst r b1. cbn [fst snd].
    assert (Hal' : alloc b' = alloc b).
    { destruct (HP _ _ _ E1) as (_ & _ & HD). 
      destruct (Nat.eq_dec (Z.to_nat 0) 0); [|lia]. clear - E1 Hwf. unfold mbind in E1.
      pose proof (peek_string_ok b Hwf) as Hp. destruct (dec_string (contents b)) as [[v0 r0]|e0]; [destruct Hp as [Hp _]|];
        rewrite Hp in E1; [|discriminate]. cbn [snd] in E1.
      destruct (sshbuf_consume (u64 (zlen v0 + 4)) b) as [[u|x] b1|f] eqn:Ec; [|discriminate|discriminate].
      inversion E1; subst b1. unfold sshbuf_consume, mbind in Ec. rewrite check_sanity_ok in Ec by assumption.
      destruct (_ =? 0). { inversion Ec; subst; reflexivity. }
      rewrite len_ok in Ec by assumption. destruct (_ <? _); [discriminate|]. inversion Ec.
      destruct (_ =? _); reflexivity. }
    pose proof (zlen_nonneg Z v). pose proof Hwf as [w1 w2 w3 w4 w5 w6].
    destruct (derive_ok (upd h i c') i b' (off b + 4) (zlen v) HI (small_upd h i c' Hs Hrc') ltac:(rewrite upd_same, Hrc'; now apply room_ref)) as (h' & -> & I' & Hs'' & N' & NH & _ & NR & K');
      auto; try (rewrite upd_same; assumption); try lia.
    eexists _, _. split; [reflexivity|].
    cbn in N'. splits; auto; try lia.
    + intros j Jn Hj. destruct (K1 j Jn Hj) as [A B]. pose proof (inv_lt _ _ _ _ HI (held_act _ _ _ _ HI A)) as Hlt. cbn in Hlt.
      destruct (K' j ltac:(cbn; lia)) as (E2 & _ & _ & E3). rewrite E2, E3. auto.
    + intros j Hj Hl. destruct (K' j ltac:(cbn; lia)) as (_ & -> & _). apply R1; auto.
    + intros _. cbn [upd hn] in NH, NR, N'. assert (Hin : i <> hn h) by (pose proof (inv_lt _ _ _ _ H (held_act _ _ _ _ H Hh)); lia).
      destruct (K' i Hin) as (-> & _ & _ & ->). rewrite upd_same. split; [assumption|].
      exists (contents b). unfold readable at 1. rewrite Hv. split; [reflexivity|]. rewrite Ed. splits; auto.
      * unfold readable. rewrite Hvi. cbn [option_map]. now rewrite HC.
      * now rewrite NR, HV.
  - (* op *)
    destruct (held (hp h i)) eqn:Hh; cbn [negb]; [|eexists _, _; split; [reflexivity|]; splits; auto; try exact I; try lia; cbn [derived_as]; rewrite ?Hh; try discriminate; auto].
    destruct Ho as [Ho Hk].
    destruct (on_buf_ok _ h i _ (fun h' _ => HRet true h') H Hs Hh (pres_op o)) as
      (b & r & b' & c' & Hv & Hwf & Em & Hwf' & Hst & Hch & Hcr & Hcb & Hcp & HI & Hrc' & Hvi & Hvj & ->).
    { intros b Hb Hl.
      assert (Hr : reset_safe o b).
      { destruct o; cbn; auto. destruct Hl as [|Hl]; [auto|right]. unfold shared. now rewrite Hl. }
      destruct (step_ok o b Hb Ho Hr) as (r & b' & E & W & Q). exists r, b'. splits; auto.
      destruct (pres_op o b r b' E) as (Hro & _). rewrite Hro.
      destruct (step_meta _ _ _ _ Q) as [_ M]. rewrite M.
      destruct o, r; cbn in Hk; auto; destruct Hl; auto; left; consts; lia. }
    pose proof (small_upd h i c' Hs Hrc') as Hs'.
    destruct (on_buf_keeps h i c' b' H HI Hch Hvi (held_act _ _ _ _ H Hh) Hvj) as [K1 R1].
    destruct r; eexists _, _; (split; [reflexivity|]; splits; auto; try (cbn; lia); intros _; rewrite upd_same; auto).
  - (* free *)
    destruct (held (hp h i)) eqn:Hh; cbn [negb]; [|eexists _, _; split; [reflexivity|]; splits; auto; try exact I; try lia; cbn [derived_as]; rewrite ?Hh; try discriminate; auto].
    pose proof (held_act _ _ _ _ H Hh) as Ha.
    set (h0 := upd h i (set_held (hp h i) false)).
    assert (P0 : hp h0 i = set_held (hp h i) false) by apply upd_same.
    assert (Pj : forall j, j <> i -> hp h0 j = hp h j) by (intros; now apply upd_other).
    assert (SB : forall j, same_but_ref (hp h j) (hp h0 j) /\ refcount (st (hp h0 j)) = refcount (st (hp h j)) /\ live (hp h0 j) = live (hp h j)).
    { intros j. destruct (Nat.eq_dec j i) as [->|]; [rewrite P0; unfold same_but_ref; cbn; auto 15|rewrite Pj by assumption; auto using sbr_refl]. }
    assert (A0 : forall j, act (hp h0 j) = act (hp h j)).
    { intros j. unfold act. destruct (SB j) as (_ & -> & _). reflexivity. }
    assert (C0 : forall j, cnt h0 j = cnt h j).
    { intros j. apply cnt_same; [reflexivity|]. intros k. unfold is_par. rewrite A0. destruct (SB k) as ((-> & _) & _). reflexivity. }
    assert (I0 : inv h0 (Some i) none_dead).
    { split.
      - intros j Hj. cbn in Hj. assert (j <> i) by (pose proof (inv_lt _ _ _ _ H Ha); lia). rewrite Pj by assumption. now apply (i_out _ _ _ H).
      - intros j. destruct (SB j) as (_ & _ & ->). rewrite A0. apply (i_live _ _ _ H).
      - intros j Hj. discriminate.
      - intros j. rewrite A0. destruct (Nat.eq_dec j i) as [->|]; [rewrite P0; reflexivity|rewrite Pj by assumption; apply (i_held _ _ _ H)].
      - intros j. rewrite A0, C0. destruct (SB j) as (_ & -> & _). intros Hj. rewrite (i_ref _ _ _ H j Hj). cbn [pendz].
        destruct (Nat.eq_dec j i) as [->|Ji].
        + rewrite P0, Hh, Nat.eqb_refl. cbn [set_held held b2z]. lia.
        + rewrite Pj by assumption. destruct (Nat.eqb i j) eqn:E; [apply Nat.eqb_eq in E; congruence|]. cbn [b2z]. lia.
      - intros j p. rewrite !A0. destruct (SB j) as ((-> & -> & _ & _ & _ & _ & _ & _ & ->) & _).
        destruct (SB p) as ((_ & -> & _) & _). apply (i_par _ _ _ H).
      - intros j. rewrite A0. destruct (SB j) as ((-> & -> & -> & _) & _). apply (i_top _ _ _ H).
      - intros j. destruct (SB j) as ((_ & -> & _) & _). rewrite !A0. destruct (SB (root (hp h j))) as ((-> & _) & _). apply (i_root _ _ _ H).
      - intros j. rewrite A0. destruct (SB j) as ((_ & -> & -> & _ & -> & _) & _).
        destruct (SB (root (hp h j))) as ((_ & _ & _ & -> & _) & _). apply (i_rng _ _ _ H).
      - intros j. rewrite A0. destruct (SB j) as ((-> & _ & _ & -> & -> & _) & _). apply (i_own _ _ _ H).
      - intros j. rewrite A0. destruct (SB j) as ((_ & _ & _ & _ & F1 & F2 & F3 & F4 & _) & _). cbv zeta. rewrite F1, F2, F3, F4. apply (i_sb _ _ _ H).
      - intros j. rewrite A0. destruct (SB j) as ((_ & _ & _ & _ & _ & _ & _ & -> & ->) & _). apply (i_lim _ _ _ H). }
    destruct (free_ok (S i) h0 i none_dead ltac:(lia) I0 (small_upd h i (set_held (hp h i) false) Hs eq_refl) ltac:(rewrite A0; assumption)) as (h' & E & I' & N' & HH & HL & SB' & HR').
    assert (Hs0 : small h0) by exact (small_upd h i (set_held (hp h i) false) Hs eq_refl).
    fold h0. rewrite E. eexists _, _. split; [reflexivity|]. cbn in N'. splits; auto; try lia.
    + intros j. specialize (HR' j). specialize (Hs0 j). lia.
    + intros j Jn Hj. assert (Ji : j <> i) by congruence.
      assert (Hh' : held (hp h' j) = true) by (rewrite HH, Pj; assumption). split; [assumption|].
      pose proof (held_act _ _ _ _ I' Hh') as Aj'. pose proof (held_act _ _ _ _ H Hj) as Aj.
      assert (SBj : forall k, same_but_ref (hp h k) (hp h' k)).
      { intros k. eapply sbr_trans; [apply SB|apply SB']. }
      unfold readable, view, view_dat.
      destruct (SBj j) as (_ & Er & Eb & Ed & Ea & Eo & Ez & _). rewrite Er, Eb, Ed, Ea.
      destruct (SBj (root (hp h j))) as (_ & _ & _ & -> & _).
      destruct (i_root _ _ _ I' j Aj') as (Ar' & _). rewrite Er in Ar'.
      destruct (i_root _ _ _ H j Aj) as (Ar & _).
      rewrite !(i_live _ _ _ I'), !(i_live _ _ _ H), Aj, Aj', Ar, Ar'. cbn [orb andb].
      destruct (Nat.eqb _ _); [|destruct (_ <=? _); [|reflexivity]]; cbn [option_map]; unfold contents; cbn [set_dat off size dat];
        now rewrite Eo, Ez.
    + intros j Hj Hl. apply HL. destruct (SB j) as (_ & _ & ->). assumption.
    + cbn [derived_as]. rewrite HH, P0. auto.
Qed.

Lemma hrun_ok : forall l h, inv h None none_dead -> small h -> hist_from h l ->
  exists b h', hrun h l = HRet b h' /\ inv h' None none_dead /\ small h'.
Proof.
  induction l as [|o l IH]; intros h H Hs Ho.
  - exists true, h. splits; auto.
  - destruct Ho as (Ho & Hr & Hl). cbn [hrun].
    destruct (hstep_ok h o H Hs Ho Hr) as (b & h1 & E1 & I1 & S1 & _). rewrite E1 in *.
    destruct (IH h1 I1 S1 Hl) as (b' & h' & E & I' & S'). exists b', h'. splits; auto.
Qed.
Lemma small0 : small heap0.
Proof. intros i. cbn. unfold SSHBUF_REFS_MAX. lia. Qed.
Lemma reached_inv : forall h, reached h -> inv h None none_dead /\ small h.
Proof.
  intros h (l & b & Ho & E). destruct (hrun_ok l heap0 inv0 small0 Ho) as (b' & h' & E' & I' & S').
  rewrite E in E'. inversion E'; subst. auto.
Qed.
Lemma hist_app : forall l1 l2 h b h', hist_from h (l1 ++ l2) -> hrun h l1 = HRet b h' ->
  hist_from h l1 /\ hist_from h' l2.
Proof.
  induction l1 as [|o l1 IH]; intros l2 h b h' H E; cbn in *.
  - inversion E; subst. auto.
  - destruct H as (H1 & H2 & H3). destruct (hstep h o) as [x h1|f]; [|discriminate].
    destruct (IH l2 h1 b h' H3 E). auto.
Qed.
