(** Property C50: number, port and time parsing never wraps. *)
From Coq Require Import String.
From Verif Require Import Base Text MiscNumModel MiscNumSpec MiscNumProof.

(** strtonum: the value of the text when it is a number in range; otherwise the
    error tells which of the three things is wrong. *)
Theorem C50_number : forall s lo hi, LLONG_MIN <= lo -> lo <= hi -> hi <= LLONG_MAX ->
  match strtonum s lo hi with
  | inl v => numeral s v /\ lo <= v <= hi
  | inr NInvalid => forall v, ~ numeral s v
  | inr NTooSmall => exists v, numeral s v /\ v < lo
  | inr NTooLarge => exists v, numeral s v /\ v > hi
  end /\ forall v w, numeral s v -> numeral s w -> v = w.
Proof.
  intros s lo hi H1 H2 H3. split; [|intros; eapply numeral_fun; eassumption].
  destruct (strtonum s lo hi) as [v|e] eqn:E.
  - apply strtonum_ok in E; assumption.
  - apply strtonum_err in E; try assumption. destruct e; [intros v Hv; apply E; eauto|assumption|assumption].
Qed.
Print Assumptions C50_number.

(** a2port: a number 0..65535 gives that port; anything else is what the service
    database says, a 16-bit number, or -1. *)
Theorem C50_port : forall serv s,
  (forall v, numeral s v -> 0 <= v <= 65535 -> a2port serv s = v) /\
  ((forall v, numeral s v -> ~ 0 <= v <= 65535) ->
   a2port serv s = match serv s with Some p => p mod 65536 | None => -1 end) /\
  -1 <= a2port serv s <= 65535.
Proof.
  intros serv s. assert (L : LLONG_MIN <= 0 /\ 65535 <= LLONG_MAX) by (unfold LLONG_MIN, LLONG_MAX; lia). unfold a2port. split; [|split].
  - intros v Hn Hr. rewrite (proj2 (strtonum_ok s 0 65535 v ltac:(lia) ltac:(lia))); auto.
  - intros H. destruct (strtonum s 0 65535) as [v|e] eqn:E; [|reflexivity].
    apply strtonum_ok in E; [|lia|lia]. destruct E as [E Hr]. destruct (H v E Hr).
  - destruct (strtonum s 0 65535) as [v|e] eqn:E.
    + apply strtonum_ok in E; [|lia|lia]. lia.
    + destruct (serv s); [|lia]. unfold u16, U16. pose proof (Z.mod_pos_bound z 65536). lia.
Qed.
Print Assumptions C50_port.

(** convtime: the number of seconds an interval text denotes when it fits an int;
    -1 for any other text. *)
Theorem C50_time : forall s,
  (forall v, interval s v -> v <= 2147483647 -> convtime s = v) /\
  ((forall v, interval s v -> v > 2147483647) -> convtime s = -1) /\
  -1 <= convtime s <= 2147483647 /\
  (0 <= convtime s -> interval s (convtime s)).
Proof.
  intros s. destruct s as [|c r].
  { assert (N : forall v, ~ interval [] v) by (intros v H; apply interval_nonneg in H; destruct H; congruence).
    splits; cbn; try lia; try reflexivity. intros v H. destruct (N v H). }
  unfold convtime. set (s := c :: r).
  assert (A : forall v, interval s v -> v <= INT_MAX -> ctime_loop (length s) s 0 = CtOk v).
  { intros v Hi Hv. rewrite (ctime_loop_ok _ _ Hi) by (unfold INT_MAX in *; lia). replace (0 + v <=? INT_MAX) with true by lia. f_equal. }
  assert (B : forall v, ctime_loop (length s) s 0 = CtOk v -> interval s v /\ v <= INT_MAX).
  { intros v E. destruct (ctime_loop_inv _ _ _ _ E) as (w & Hw & ->); [unfold INT_MAX; lia|discriminate|]. cbn [Z.add]. split; [assumption|].
    rewrite (ctime_loop_ok _ _ Hw) in E by (unfold INT_MAX; lia). destruct (0 + w <=? INT_MAX) eqn:E2; [|discriminate]. lia. }
  pose proof (ctime_loop_fuel (length s) s 0 (le_n _)) as F. change 2147483647 with INT_MAX.
  destruct (ctime_loop (length s) s 0) as [v| |] eqn:E; [|splits|congruence].
  - destruct (B v eq_refl) as [Bi Bv]. pose proof (interval_nonneg _ _ Bi) as [Hv _]. split; [|split; [|split]].
    + intros w Hw Hle. specialize (A w Hw Hle). congruence.
    + intros H. apply H in Bi. lia.
    + lia.
    + intros _. assumption.
  - intros w Hw Hle. specialize (A w Hw Hle). congruence.
  - reflexivity.
  - lia.
  - unfold INT_MAX. lia.
  - lia.
Qed.
Print Assumptions C50_time.
Theorem C50_time_unique : forall s v w, interval s v -> interval s w -> v <= 2147483647 -> v = w \/ w > 2147483647.
Proof.
  intros s v w Hv Hw Hle. destruct (Z_le_gt_dec w 2147483647); [|auto]. left.
  destruct (C50_time s) as [A _]. rewrite <- (A v Hv Hle). now apply A.
Qed.
Print Assumptions C50_time_unique.

(** a2tun: a tunnel number below the three reserved values, "any", or the error
    value; a malformed remote part makes the whole an error. *)
Theorem C50_tun : forall s tun remote, a2tun s = (tun, remote) ->
  let one t v := v = SSH_TUNID_ANY /\ strcaseeq t (bs "any") = true \/
                 numeral t v /\ 0 <= v <= SSH_TUNID_MAX \/
                 v = SSH_TUNID_ERR /\ forall n, numeral t n -> ~ 0 <= n <= SSH_TUNID_MAX in
  (~ In 58 s /\ one s tun /\ remote = SSH_TUNID_ANY) \/
  (exists a b, s = a ++ 58 :: b /\ ~ In 58 a /\ one b remote /\
     (remote = SSH_TUNID_ERR /\ tun = SSH_TUNID_ERR \/ remote <> SSH_TUNID_ERR /\ one a tun)).
Proof.
  intros s tun remote H one.
  assert (O : forall t, one t (a2tun1 t)).
  { intros t. unfold one, a2tun1. destruct (strcaseeq t (bs "any")) eqn:E; [auto|]. right.
    assert (L : LLONG_MIN <= 0 /\ SSH_TUNID_MAX <= LLONG_MAX /\ 0 <= SSH_TUNID_MAX) by (unfold LLONG_MIN, LLONG_MAX, SSH_TUNID_MAX, SSH_TUNID_ANY; lia).
    destruct (strtonum t 0 SSH_TUNID_MAX) as [v|e] eqn:En.
    - left. apply strtonum_ok in En; [assumption|lia|lia].
    - right. split; [reflexivity|]. intros n Hn Hr. rewrite (proj2 (strtonum_ok t 0 SSH_TUNID_MAX n ltac:(lia) ltac:(lia))) in En; [discriminate|auto]. }
  assert (C : forall t, match strchr_cut 58 t with None => ~ In 58 t | Some (a, b) => t = a ++ 58 :: b /\ ~ In 58 a end).
  { clear. induction t as [|x t IH]; cbn [strchr_cut]; [intros []|]. destruct (x =? 58) eqn:E.
    - assert (x = 58) by lia. subst. split; [reflexivity|intros []].
    - destruct (strchr_cut 58 t) as [[a b]|].
      + destruct IH as [-> IH]. split; [reflexivity|]. intros [Hi|Hi]; [lia|auto].
      + intros [Hi|Hi]; [lia|auto]. }
  unfold a2tun in H. specialize (C s). destruct (strchr_cut 58 s) as [[a b]|]; inversion H; subst.
  - right. destruct C as [-> C]. exists a, b. splits; auto. destruct (a2tun1 b =? SSH_TUNID_ERR) eqn:E; [left; lia|right]. split; [lia|apply O].
  - left. auto.
Qed.
Print Assumptions C50_tun.

(** urldecode: exactly the percent-encoded texts decode; the caller sees the
    decoded bytes up to a decoded NUL. *)
Theorem C50_url : forall s,
  (forall d, url s d -> urldecode s = Some (cstr d)) /\
  ((forall d, ~ url s d) -> urldecode s = None) /\
  (forall d, url s d -> ~ In 0 d -> urldecode s = Some d).
Proof.
  intros s. assert (C : forall d, ~ In 0 d -> cstr d = d).
  { induction d as [|x d IH]; intros H; [reflexivity|]. cbn. destruct (x =? 0) eqn:E; [exfalso; apply H; left; lia|]. f_equal. apply IH. intros Hi. apply H. now right. }
  assert (A : forall d, url s d -> urldecode s = Some (cstr d)).
  { intros d H. unfold urldecode. apply (urldecode_buf_iff (length s) s d (le_n _)) in H. now rewrite H. }
  splits; [assumption| |].
  - intros H. unfold urldecode. destruct (urldecode_buf s) as [d|] eqn:E; [|reflexivity]. apply (urldecode_buf_iff (length s) s d (le_n _)) in E. destruct (H d E).
  - intros d Hu Hn. rewrite (A d Hu). now rewrite C.
Qed.
Print Assumptions C50_url.
(** An encoded NUL silently truncates the decoded text. *)
Theorem C50_url_nul_refuted : exists s d, url s d /\ urldecode s <> Some d.
Proof.
  exists (bs "a%00b"), [97; 0; 98]. split.
  - apply url_char; [lia|lia|]. apply (url_hex 48 48 0 0); [left; lia|left; lia|]. apply url_char; [lia|lia|]. constructor.
  - vm_compute. discriminate.
Qed.
Print Assumptions C50_url_nul_refuted.

(** parse_pattern_interval and atoi_err are these parsers on a part of the text. *)
Theorem C50_pattern_interval : forall s ty secs, parse_pattern_interval s = Some (ty, secs) ->
  exists t, s = ty ++ 61 :: t /\ ty <> [] /\ interval t secs /\ 0 <= secs <= 2147483647.
Proof.
  intros s ty secs H. unfold parse_pattern_interval in H.
  assert (C : forall t, match strchr_cut 61 t with None => True | Some (a, b) => t = a ++ 61 :: b end).
  { clear. induction t as [|x t IH]; cbn [strchr_cut]; [exact I|]. destruct (x =? 61) eqn:E.
    - assert (x = 61) by lia. now subst.
    - destruct (strchr_cut 61 t) as [[a b]|]; [now rewrite IH|exact I]. }
  specialize (C s). destruct (strchr_cut 61 s) as [[[|x a] b]|]; try discriminate. destruct (convtime b <? 0) eqn:E; [discriminate|].
  inversion H; subst. exists b. destruct (C50_time b) as (_ & _ & R & I). splits; auto; [discriminate|apply I; lia|lia|lia].
Qed.
Print Assumptions C50_pattern_interval.
Theorem C50_atoi : forall s v, atoi_err s = Some v <-> numeral s v /\ 0 <= v <= 2147483647.
Proof.
  intros s v. assert (L : LLONG_MIN <= 0 /\ INT_MAX <= LLONG_MAX) by (unfold LLONG_MIN, LLONG_MAX, INT_MAX; lia).
  unfold atoi_err. destruct s as [|c r].
  - split; [discriminate|]. intros [H _]. apply strtoll_numeral in H. discriminate.
  - rewrite <- (strtonum_ok (c :: r) 0 INT_MAX v) by lia. destruct (strtonum _ _ _); split; intros H; inversion H; reflexivity.
Qed.
Print Assumptions C50_atoi.

Example C50_demo :
  convtime (bs "1w2d3h4m5") = 604800 + 2 * 86400 + 3 * 3600 + 4 * 60 + 5 /\ convtime (bs "3551w") = -1 /\
  convtime (bs "596523h14m7s") = 2147483647 /\ convtime (bs "596523h14m8s") = -1 /\
  a2port (fun _ => None) (bs " +22") = 22 /\ a2port (fun _ => None) (bs "65536") = -1 /\
  a2port (fun _ => None) (bs "18446744073709551638") = -1 /\
  a2tun (bs "3:any") = (3, SSH_TUNID_ANY) /\ a2tun (bs "3:x") = (SSH_TUNID_ERR, SSH_TUNID_ERR) /\
  urldecode (bs "a+b%2Fc") = Some (bs "a b/c") /\ urldecode (bs "%2") = None.
Proof. splits; vm_compute; reflexivity. Qed.
Example C50_demo_interval : interval (bs "1h30m") 5400.
Proof.
  apply (iv_term [49] 1 104 3600 (bs "30m") 1800).
  - apply (dec_one 1). lia.
  - right. right. left. split; [now left|reflexivity].
  - apply (iv_last (bs "30") 30 109 60); [|right; left; split; [now left|reflexivity]].
    apply (dec_more [51] 3 0); [apply (dec_one 3); lia|lia].
Qed.
