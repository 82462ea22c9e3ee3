(** Properties C05 to C09: the wire encodings, through the buffer API. *)
From Coq Require Import String.
From Verif Require Import Base SshbufModel SshbufSpec SshbufProof WireModel WireSpec WireProof.

(** C05.  Write any fields into a new buffer; hand the bytes, followed by
    anything, to any reader: reading fields of the same types returns the values
    written and leaves what followed. *)
Theorem C05_roundtrip : forall xs rs b reader tail,
  Forall wvalid xs ->
  run_ops (map put_op xs) sshbuf_new = Some (rs, b) -> all_ok rs ->
  reachable reader -> contents reader = contents b ++ tail ->
  exists reader', run_ops (map get_op xs) reader = Some (map (fun x => ROk (got x)) xs, reader') /\
    contents reader' = tail.
Proof.
  intros xs rs b reader tail Hv E Hok Hr C.
  destruct (puts_enc xs sshbuf_new rs b wf_new Hv E Hok) as [W Cb].
  apply gets_dec; auto. now apply reach_wf. rewrite C, Cb. reflexivity.
Qed.
Print Assumptions C05_roundtrip.

(** The bytes of each fixed-width integer are its big-endian digits. *)
Theorem C05_int_bytes : forall b w v b', reachable b -> (w = 1 \/ w = 2 \/ w = 4 \/ w = 8)%nat -> 0 <= v < 256 ^ Z.of_nat w ->
  do_op (OPutInt true w v) b = Ret (ROk VUnit) b' ->
  exists d, contents b' = contents b ++ d /\ length d = w /\
    forall i, (i < w)%nat -> nth i d 0 = v / 256 ^ (Z.of_nat w - 1 - Z.of_nat i) mod 256.
Proof.
  intros b w v b' Hr Hw Hv E. pose proof (reach_wf b Hr) as W.
  destruct (put_enc b (WInt w v) W (conj Hw Hv)) as (r & b1 & E1 & W1 & _ & _ & HC).
  cbn [put_op] in E1. rewrite E in E1. inversion E1; subst.
  destruct HC as [(_ & _ & _ & C)|(_ & [e He] & _)]; [|discriminate].
  exists (be_enc w v). split; [exact C|]. split; [apply be_enc_length|].
  clear. revert v. induction w as [|w IH]; intros v i Hi; [lia|].
  cbn [be_enc]. destruct (Nat.eq_dec i w) as [->|Hne].
  - rewrite app_nth2 by (rewrite be_enc_length; lia). rewrite be_enc_length, Nat.sub_diag. cbn [nth].
    replace (Z.of_nat (S w) - 1 - Z.of_nat w) with 0 by lia. now rewrite Z.pow_0_r, Z.div_1_r.
  - rewrite app_nth1 by (rewrite be_enc_length; lia). rewrite IH by lia.
    rewrite Z.div_div by (try apply Z.pow_pos_nonneg; lia). f_equal. f_equal.
    replace (Z.of_nat (S w) - 1 - Z.of_nat i) with (1 + (Z.of_nat w - 1 - Z.of_nat i)) by lia.
    rewrite Z.pow_add_r by lia. lia.
Qed.
Print Assumptions C05_int_bytes.

(** Writing succeeds whenever the encoding fits. *)
Theorem C05_fits : forall b xs, reachable b -> shared b = false -> Forall wvalid xs ->
  zlen (contents b) + zlen (flat_map enc xs) <= max_size b ->
  exists rs b', run_ops (map put_op xs) b = Some (rs, b') /\ all_ok rs.
Proof.
  intros b xs Hr Hs Hv Hl. apply puts_fit; auto. now apply reach_wf. rewrite zlen_app. exact Hl.
Qed.
Print Assumptions C05_fits.

Example C05_case :
  let xs := [WInt 4 3735928559; WStr (bs "ssh-userauth"); WCstr (bs "root"); WMpint [128; 0]; WStr []] in
  exists rs b, run_ops (map put_op xs) sshbuf_new = Some (rs, b) /\ all_ok rs /\
    sshbuf_from (contents b ++ [9]) <> None /\ Forall wvalid xs.
Proof.
  eexists _, _. split; [vm_compute; reflexivity|]. split; [repeat constructor; eauto|].
  split; [discriminate|].
  repeat apply Forall_cons; try apply Forall_nil; cbn [wvalid]; splits; try lia;
    unfold is_bytes, is_byte; repeat constructor; try lia; try (intros; discriminate);
    intros H; cbn in H; repeat destruct H as [H|H]; try discriminate; contradiction.
Qed.

(** C06.  What an mpint put appends is the length-prefixed minimal
    two's-complement form of the number; two byte strings with equal value give
    identical bytes. *)
Theorem C06_put_minimal : forall b v b', reachable b -> is_bytes v -> zlen v <= SIZE_MAX ->
  do_op (OPutBignum true v) b = Ret (ROk VUnit) b' ->
  exists body, contents b' = contents b ++ be_enc 4 (zlen body) ++ body /\ minimal_mpint (be_dec v) body.
Proof.
  intros b v b' Hr Hv Hl E. exists (mpint_body v). split; [|now apply mpint_body_minimal].
  rewrite (put_bignum_step b v b' (reach_wf b Hr) Hv Hl E). reflexivity.
Qed.
Print Assumptions C06_put_minimal.

Theorem C06_put_unique : forall b v1 v2 b1 b2, reachable b -> is_bytes v1 -> is_bytes v2 ->
  zlen v1 <= SIZE_MAX -> zlen v2 <= SIZE_MAX -> be_dec v1 = be_dec v2 ->
  do_op (OPutBignum true v1) b = Ret (ROk VUnit) b1 ->
  do_op (OPutBignum true v2) b = Ret (ROk VUnit) b2 ->
  contents b1 = contents b2.
Proof.
  intros b v1 v2 b1 b2 Hr H1 H2 L1 L2 E E1 E2. pose proof (reach_wf b Hr) as W.
  rewrite (put_bignum_step b v1 b1), (put_bignum_step b v2 b2) by auto.
  now rewrite (mpint_body_unique v1 v2).
Qed.
Print Assumptions C06_put_unique.

(** Reading: a length-prefixed body is accepted iff its top bit is clear and it
    has at most 2048 bytes, or 2049 of which the first is zero; the result is the
    magnitude without leading zeros. *)
Theorem C06_get : forall b body rest, reachable b -> contents b = be_enc 4 (zlen body) ++ body ++ rest ->
  zlen body <= 134217724 ->
  if (match body with x :: _ => x <? 128 | [] => true end) &&
     ((zlen body <=? 2048) || (zlen body =? 2049) && (hd 0 body =? 0))
  then exists v b', do_op OGetBignum b = Ret (ROk (VBytes v)) b' /\ contents b' = rest /\
         be_dec v = be_dec body /\ (forall r, v <> 0 :: r)
  else exists e b', do_op OGetBignum b = Ret (RErr e) b' /\ contents b' = contents b.
Proof.
  intros b body rest Hr C Hl. pose proof (reach_wf b Hr) as W.
  pose proof (get_mpint_spec b W) as HG. unfold dec_mpint in HG. rewrite C, app_assoc in HG.
  fold (enc_string body) in HG. rewrite dec_string_ok in HG by (consts; lia).
  rewrite app_assoc in C. fold (enc_string body) in C. rewrite <- C in HG.
  assert (HM : msb body = negb (match body with x :: _ => x <? 128 | [] => true end)).
  { destruct body; cbn; [reflexivity|lia]. }
  rewrite HM in HG. destruct (match body with x :: _ => x <? 128 | [] => true end); cbn [negb andb] in *.
  - replace ((zlen body <=? 2048) || (zlen body =? 2049) && (hd 0 body =? 0)) with
      (negb ((SSHBUF_MAX_BIGNUM + 1 <? zlen body) || (zlen body =? SSHBUF_MAX_BIGNUM + 1) && negb (hd 0 body =? 0)))
      by (consts; lia).
    destruct (_ || _); cbn [negb].
    + destruct HG as (b' & E & C'). eauto.
    + destruct HG as (b' & E & C'). exists (strip0 body), b'. splits; auto.
      * apply be_dec_strip0.
      * destruct (strip0_spec body) as (_ & _ & Hn). exact Hn.
  - destruct HG as (b' & E & C'). eauto.
Qed.
Print Assumptions C06_get.

Example C06_case : exists b, do_op (OPutBignum true [0; 0; 128; 1]) sshbuf_new = Ret (ROk VUnit) b /\
  contents b = [0; 0; 0; 3; 0; 128; 1].
Proof. eexists. split; [vm_compute; reflexivity|reflexivity]. Qed.

(** C07.  Each reader, on every buffer: either it returns a value that is
    literally at the front of the contents and removes exactly that, or it
    reports an error and removes nothing.  (It cannot fault.) *)
Theorem C07_total : forall b o, reachable b -> is_get o ->
  (exists x b', do_op o b = Ret (ROk x) b' /\ read_as o x (contents b) (contents b')) \/
  (exists e b', do_op o b = Ret (RErr e) b' /\ contents b' = contents b).
Proof. intros b o Hr Hg. apply get_total; auto. now apply reach_wf. Qed.
Print Assumptions C07_total.

(** Every byte string can be put in front of a reader. *)
Theorem C07_any_input : forall l, is_bytes l -> zlen l <= 134217728 ->
  exists b, reachable b /\ contents b = l.
Proof.
  intros l Hl Hn. assert (exists b, sshbuf_from l = Some b) as [b E].
  { unfold sshbuf_from. replace (SSHBUF_SIZE_MAX <? zlen l) with false by (consts; lia). eauto. }
  exists b. destruct (wf_from l b Hl E) as (_ & _ & C). split; [|assumption].
  exists b, [], []. splits; [right; eauto| |reflexivity]. split; [constructor|left; constructor].
Qed.
Print Assumptions C07_any_input.

(** If the copy of a string cannot be allocated the error does consume the
    bytes: the side-effect-free claim needs the allocation to succeed. *)
Theorem C07_alloc_failure_refuted :
  exists b b' e, reachable b /\ do_op (OGetString false) b = Ret (RErr e) b' /\ contents b' <> contents b.
Proof.
  destruct (C07_any_input [0;0;0;1;65]) as (b0 & _ & _).
  { repeat constructor; lia. } { cbn. lia. }
  eexists (mkSbuf [0;0;0;1;65] 0 5 5 5 true 1), _, _. split; [|split; [vm_compute; reflexivity|vm_compute; discriminate]].
  exists (mkSbuf [0;0;0;1;65] 0 5 5 5 true 1), [], []. splits; [right|split; [constructor|left; constructor]|reflexivity].
  exists [0;0;0;1;65]. split; [repeat constructor; lia|reflexivity].
Qed.
Print Assumptions C07_alloc_failure_refuted.

Example C07_case_hostile : exists b, contents b = [255;255;255;255;65] /\
  do_op (OGetString true) b = Ret (RErr SSH_ERR_STRING_TOO_LARGE) b.
Proof. exists (mkSbuf [255;255;255;255;65] 0 5 5 5 true 1). split; reflexivity. Qed.

(** C08.  A C string is returned exactly when the wire string has no NUL, or one
    only as its last byte; what the caller sees then is the wire string without
    that NUL.  Anything else is refused and nothing is consumed. *)
Theorem C08_cstring : forall b body rest, reachable b -> contents b = be_enc 4 (zlen body) ++ body ++ rest ->
  zlen body <= 134217724 ->
  ((~ In 0 body \/ exists s, ~ In 0 s /\ body = s ++ [0]) ->
     exists m b', do_op (OGetCstring true) b = Ret (ROk (VBytes m)) b' /\ contents b' = rest /\
       ~ In 0 (cstr m) /\ (body = cstr m \/ body = cstr m ++ [0])) /\
  (~ (~ In 0 body \/ exists s, ~ In 0 s /\ body = s ++ [0]) ->
     exists e b', do_op (OGetCstring true) b = Ret (RErr e) b' /\ contents b' = contents b).
Proof.
  intros b body rest Hr C Hl. pose proof (get_cstring_spec b (reach_wf b Hr)) as HG.
  assert (HD : dec_string (contents b) = ROk (body, rest)).
  { rewrite C, app_assoc. fold (enc_string body). apply dec_string_ok. consts. lia. }
  rewrite HD in HG. rewrite <- nul_ok_spec. destruct (nul_ok body) eqn:En; split; intros HN; try congruence.
  - destruct HG as (b' & E & C'). exists body, b'. splits; auto. { apply cstr_no_nul. }
    apply nul_ok_spec in En. destruct En as [En|(s & Hs & ->)].
    + left. symmetry. apply find_nul_not. now apply find_nul_none.
    + right. f_equal. clear - Hs. induction s as [|c s IH]; [reflexivity|]. cbn [app cstr].
      destruct (c =? 0) eqn:E; [exfalso; apply Hs; left; lia|]. f_equal. apply IH. intros H. apply Hs. now right.
  - destruct HG as (b' & E & C'). eauto.
Qed.
Print Assumptions C08_cstring.

Example C08_case : exists b, contents b = [0;0;0;3;65;0;66;9] /\
  do_op (OGetCstring true) b = Ret (RErr SSH_ERR_INVALID_FORMAT) b.
Proof. exists (mkSbuf [0;0;0;3;65;0;66;9] 0 8 8 8 true 1). split; reflexivity. Qed.

(** C09.  Two field sequences of the same types written into new buffers never
    give the same bytes, nor is one a proper prefix of the other. *)
Theorem C09_unambiguous : forall xs ys rs1 rs2 b1 b2 t u,
  Forall wvalid xs -> Forall wvalid ys -> map shape xs = map shape ys ->
  run_ops (map put_op xs) sshbuf_new = Some (rs1, b1) -> all_ok rs1 ->
  run_ops (map put_op ys) sshbuf_new = Some (rs2, b2) -> all_ok rs2 ->
  contents b1 ++ t = contents b2 ++ u -> xs = ys /\ t = u.
Proof.
  intros xs ys rs1 rs2 b1 b2 t u Hx Hy Hs E1 K1 E2 K2 C.
  destruct (puts_enc xs _ _ _ wf_new Hx E1 K1) as [_ C1].
  destruct (puts_enc ys _ _ _ wf_new Hy E2 K2) as [_ C2].
  apply enc_inj; auto. rewrite C1, C2 in C. exact C.
Qed.
Print Assumptions C09_unambiguous.

(** In particular the data signed for public-key authentication determines
    every one of its ingredients, whichever of the two methods is used. *)
Theorem C09_userauth : forall sid us sv al bl hk sid' us' sv' al' bl' hk' rs rs' b b',
  let ok v := is_bytes v /\ zlen v <= 134217724 in
  Forall ok [sid; us; sv; al; bl; sid'; us'; sv'; al'; bl'] ->
  (forall h, hk = Some h \/ hk' = Some h -> ok h) ->
  run_ops (userauth_ops sid us sv al bl hk) sshbuf_new = Some (rs, b) -> all_ok rs ->
  run_ops (userauth_ops sid' us' sv' al' bl' hk') sshbuf_new = Some (rs', b') -> all_ok rs' ->
  contents b = contents b' ->
  sid = sid' /\ us = us' /\ sv = sv' /\ al = al' /\ bl = bl' /\ hk = hk'.
Proof.
  intros sid us sv al bl hk sid' us' sv' al' bl' hk' rs rs' b b' ok HF HK E1 K1 E2 K2 C.
  rewrite userauth_fields in E1, E2.
  repeat match goal with H : Forall ok (_ :: _) |- _ => inversion H; clear H; subst end.
  assert (HM : forall x, wvalid (WStr (method_name x))).
  { intros x. cbn. split; [|destruct x; cbn; lia]. unfold is_bytes, is_byte.
    destruct x; cbn; repeat constructor; lia. }
  assert (HI : wvalid (WInt 1 50) /\ wvalid (WInt 1 1)) by (cbn; lia).
  destruct HI as [HI1 HI2].
  set (p1 := [WStr sid; WInt 1 50; WStr us; WStr sv; WStr (method_name (is_some hk)); WInt 1 1; WStr al; WStr bl]) in *.
  set (p2 := [WStr sid'; WInt 1 50; WStr us'; WStr sv'; WStr (method_name (is_some hk')); WInt 1 1; WStr al'; WStr bl']) in *.
  assert (V1 : Forall wvalid p1) by (unfold p1; repeat (apply Forall_cons; [assumption||auto|]); constructor).
  assert (V2 : Forall wvalid p2) by (unfold p2; repeat (apply Forall_cons; [assumption||auto|]); constructor).
  set (q1 := match hk with Some h => [WStr h] | None => [] end) in *.
  set (q2 := match hk' with Some h => [WStr h] | None => [] end) in *.
  assert (W1 : Forall wvalid q1).
  { unfold q1. destruct hk as [h|]; repeat constructor; apply (HK h); auto. }
  assert (W2 : Forall wvalid q2).
  { unfold q2. destruct hk' as [h|]; repeat constructor; apply (HK h); auto. }
  assert (VV1 : Forall wvalid (p1 ++ q1)) by (apply Forall_app; auto).
  assert (VV2 : Forall wvalid (p2 ++ q2)) by (apply Forall_app; auto).
  destruct (puts_enc _ _ _ _ wf_new VV1 E1 K1) as [_ C1].
  destruct (puts_enc _ _ _ _ wf_new VV2 E2 K2) as [_ C2].
  rewrite C1, C2 in C. change (contents sshbuf_new) with (@nil Z) in C. cbn [app] in C.
  unfold enc_all in C. rewrite !flat_map_app in C.
  destruct (enc_inj p1 p2 (enc_all q1) (enc_all q2) V1 V2 eq_refl C) as [EP EQ].
  unfold p1, p2 in EP. injection EP as -> -> -> EM -> ->. splits; auto.
  destruct hk as [h|], hk' as [h'|]; cbn [is_some] in EM; auto; try discriminate.
  assert (EE : enc_all q1 ++ [] = enc_all q2 ++ []) by now rewrite !app_nil_r.
  destruct (enc_inj q1 q2 [] [] W1 W2 eq_refl EE) as [EX _]. unfold q1, q2 in EX. congruence.
Qed.
Print Assumptions C09_userauth.

Example C09_case :
  let l := userauth_ops [1;2;3] (bs "alice") (bs "ssh-connection") (bs "ssh-ed25519") [7;7] (Some [8]) in
  exists rs b, run_ops l sshbuf_new = Some (rs, b) /\ all_ok rs /\ zlen (contents b) > 60.
Proof. eexists _, _. split; [vm_compute; reflexivity|]. split; [repeat constructor; eauto|vm_compute; reflexivity]. Qed.
