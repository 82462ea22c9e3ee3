(** C37, C38, C40: key revocation lists. *)
From Coq Require Import String.
From Verif Require Import Base KrlModel KrlSpec KrlProof KrlProof2 KrlProof3 KrlProof4 KrlProof5.
Local Open Scope Z_scope.

(** ** C37 *)
(** The tree of ranges itself, whatever entry each search happens to meet first
    ([pick], one for every insertion): a serial is found exactly when it lies in
    one of the inserted ranges. *)
Definition insert_all (ins : list (nat * (Z * Z))) : list (Z * Z) :=
  fold_left (fun rt i => insert_serial_range (fst i) rt (fst (snd i)) (snd (snd i))) ins [].
Theorem C37_any_tree_shape : forall ins, (forall p lo hi, In (p, (lo, hi)) ins -> 1 <= lo /\ lo <= hi < U64) ->
  forall s, existsb (fun e => serial_cmp (s, s) e =? 0) (insert_all ins) = true <-> exists p lo hi, In (p, (lo, hi)) ins /\ lo <= s <= hi.
Proof.
  intros ins H s. rewrite cmp_point.
  assert (K : chain 1 (insert_all ins) /\ forall s, inr s (insert_all ins) <-> exists p lo hi, In (p, (lo, hi)) ins /\ lo <= s <= hi).
  { revert H. pattern ins. apply rev_ind.
    - intros _. split; [exact I|]. intros x. split; [intros Q; now apply inr_nil in Q|intros (? & ? & ? & [] & _)].
    - intros [p [lo hi]] l IH H. unfold insert_all. rewrite fold_left_app. fold (insert_all l). cbn [fold_left fst snd].
      destruct IH as [C R]; [intros p' lo' hi' Q; apply (H p' lo' hi'); apply in_or_app; now left|].
      destruct (H p lo hi) as [A B]; [apply in_or_app; right; now left|]. destruct (insert_spec p (insert_all l) 1 lo hi C ltac:(lia) B) as [C' R']. split; [exact C'|].
      intros x. rewrite R', R. split.
      + intros [(p' & lo' & hi' & Q1 & Q2)|Q]; [exists p', lo', hi'|exists p, lo, hi]; (split; [apply in_or_app; cbn [In]; auto|assumption]).
      + intros (p' & lo' & hi' & Q1 & Q2). apply in_app_or in Q1. destruct Q1 as [Q1|[Q1|[]]]; [left; eauto 6|right]. injection Q1 as <- <- <-. exact Q2. }
  apply K.
Qed.
Print Assumptions C37_any_tree_shape.
Example C37_any_tree_shape_ex :
  insert_all [(0%nat, (10, 20)); (0%nat, (40, 50)); (0%nat, (30, 30)); (1%nat, (15, 31)); (0%nat, (21, 21)); (7%nat, (51, 51))] = [(10, 31); (40, 51)].
Proof. reflexivity. Qed.

(** Through the interface: after any sequence of serial revocations for any CAs
    (None is "any CA"), a certificate whose fingerprints can be computed is
    reported revoked exactly when its serial is not 0 and lies in a revoked range
    of its CA or of any CA.  Empty ranges and ranges from 0 are refused and
    revoke nothing. *)
Definition only_serials (o : kop) : Prop := match o with KSerials _ _ _ => True | _ => False end.
Theorem C37_set_semantics : forall ops q serial id cak, Forall kop_ok ops -> Forall only_serials ops -> checkable q -> q_cert q = Some (serial, id, cak) -> q_cert cak = None ->
  ssh_krl_check_key (kruns ssh_krl_init ops) q <> KError /\
  (ssh_krl_check_key (kruns ssh_krl_init ops) q = KRevoked <->
   serial <> 0 /\ exists ca lo hi, In (KSerials ca lo hi) ops /\ (ca = Some (q_blob cak) \/ ca = None) /\ 1 <= lo /\ lo <= serial <= hi).
Proof.
  intros ops q serial id cak A O Ch Eq Ec. pose proof (check_spec ops _ q (holds_runs ops A)) as C. rewrite Forall_forall in O.
  assert (M : matches ops q <-> serial <> 0 /\ exists ca lo hi, In (KSerials ca lo hi) ops /\ (ca = Some (q_blob cak) \/ ca = None) /\ 1 <= lo /\ lo <= serial <= hi).
  { assert (Own : forall q', own_match ops q' -> exists s i ck ca, q_cert q' = Some (s, i, ck) /\ (ca = Some (q_blob ck) \/ ca = None) /\ s <> 0 /\ serial_said ops ca s).
    { intros q' [(h & _ & o & Ho & Q)|[(h & _ & o & Ho & Q)|[(h & _ & o & Ho & Q)|(s & i & ck & ca & E & X & [(o & Ho & Q)|Q])]]].
      - specialize (O o Ho). now destruct o.
      - specialize (O o Ho). now destruct o.
      - specialize (O o Ho). now destruct o.
      - specialize (O o Ho). now destruct o.
      - exists s, i, ck, ca. tauto. }
    split.
    - intros [Q|(s & i & ck & E & Q)].
      + apply Own in Q as (s & i & ck & ca & E & X & Nz & (o & Ho & Q)). assert (s = serial /\ ck = cak) as [-> ->] by (split; congruence). split; [exact Nz|].
        specialize (O o Ho). destruct o as [| |ca' lo hi| | | | |]; try contradiction. cbn [op_serial] in Q. destruct Q as (-> & Q1 & Q2). exists ca, lo, hi. auto.
      + assert (ck = cak) as -> by congruence. apply Own in Q as (s' & i' & ck' & ca & E' & _). congruence.
    - intros (Nz & ca & lo & hi & Q1 & Q2 & Q3 & Q4). left. do 3 right. exists serial, id, cak, ca. split; [exact Eq|]. split; [exact Q2|]. right. split; [exact Nz|].
      exists (KSerials ca lo hi). split; [exact Q1|]. cbn [op_serial]. auto. }
  destruct (ssh_krl_check_key (kruns ssh_krl_init ops) q).
  - destruct C as [C _]. split; [discriminate|]. split; [discriminate|]. intros Q. apply M in Q. contradiction.
  - split; [discriminate|]. split; [intros _; now apply M|reflexivity].
  - contradiction.
Qed.
Print Assumptions C37_set_semantics.
(** The largest serials, adjacent ranges joined, and a hole of one. *)
Definition ex_ca := QKey [1; 2] (Some [8]) (Some [9]) (Some [1; 2]) None.
Definition ex_cert (s : Z) := QKey [3; 4] (Some [6]) (Some [7]) (Some [3; 4]) (Some (s, [65], ex_ca)).
Definition ex_ops := [KSerials (Some [1; 2]) 18446744073709551613 18446744073709551615; KSerials None 5 9; KSerials (Some [1; 2]) 11 20; KSerials None 0 100; KSerials (Some [9]) 10 10].
Example C37_set_semantics_ex :
  map (fun s => ssh_krl_check_key (kruns ssh_krl_init ex_ops) (ex_cert s)) [0; 4; 5; 9; 10; 11; 20; 21; 18446744073709551612; 18446744073709551613; 18446744073709551615]
  = [KOk; KOk; KRevoked; KRevoked; KOk; KRevoked; KRevoked; KOk; KOk; KRevoked; KRevoked].
Proof. reflexivity. Qed.

(** ** C40 *)
(** Whatever was put in the list, in whatever order: the answer is "revoked"
    only if some criterion matches the key or the key that signed it; it is "not
    revoked" only if none does; and it is an error only for a key whose
    fingerprints or blob cannot be computed. *)
Theorem C40_any_criterion : forall ops q, Forall kop_ok ops ->
  match ssh_krl_check_key (kruns ssh_krl_init ops) q with
  | KRevoked => matches ops q
  | KOk => ~ matches ops q
  | KError => ~ checkable q
  end.
Proof. intros ops q A. pose proof (check_spec ops _ q (holds_runs ops A)) as C. destruct (ssh_krl_check_key _ q); tauto. Qed.
Print Assumptions C40_any_criterion.
(** So for a key whose fingerprints can be computed, "revoked" is exactly
    "some criterion matches". *)
Theorem C40_revoked_iff : forall ops q, Forall kop_ok ops -> checkable q ->
  (ssh_krl_check_key (kruns ssh_krl_init ops) q = KRevoked <-> matches ops q) /\ (ssh_krl_check_key (kruns ssh_krl_init ops) q = KOk <-> ~ matches ops q).
Proof.
  intros ops q A Ch. pose proof (C40_any_criterion ops q A) as C. destruct (ssh_krl_check_key (kruns ssh_krl_init ops) q); [| |contradiction]; split; split; intros Q; tauto || congruence.
Qed.
Print Assumptions C40_revoked_iff.
(** Revocations are never forgotten: a list that grows keeps every "revoked". *)
Theorem C40_monotone : forall ops more q, Forall kop_ok ops -> Forall kop_ok more -> checkable q ->
  ssh_krl_check_key (kruns ssh_krl_init ops) q = KRevoked -> ssh_krl_check_key (kruns ssh_krl_init (ops ++ more)) q = KRevoked.
Proof.
  intros ops more q A B Ch H. apply (C40_revoked_iff ops q A Ch) in H. apply (C40_revoked_iff (ops ++ more) q); [apply Forall_app; auto|exact Ch|].
  assert (S : forall T (P : kop -> T -> Prop) x, said P ops x -> said P (ops ++ more) x) by (intros T P x (o & Ho & Q); exists o; split; [apply in_or_app; now left|exact Q]).
  assert (S1 : forall ca s, serial_said ops ca s -> serial_said (ops ++ more) ca s) by (intros ca s (o & Ho & Q); exists o; split; [apply in_or_app; now left|exact Q]).
  assert (S2 : forall ca s, id_said ops ca s -> id_said (ops ++ more) ca s) by (intros ca s (o & Ho & Q); exists o; split; [apply in_or_app; now left|exact Q]).
  assert (O : forall q', own_match ops q' -> own_match (ops ++ more) q').
  { intros q' [(h & E & Q)|[(h & E & Q)|[(h & E & Q)|(s & i & ck & ca & E & X & [Q|[Z Q]])]]].
    - left. exists h. auto.
    - right; left. exists h. auto.
    - do 2 right; left. exists h. auto.
    - do 3 right. exists s, i, ck, ca. auto 10.
    - do 3 right. exists s, i, ck, ca. auto 10. }
  destruct H as [H|(s & i & ck & E & H)]; [left; auto|right; exists s, i, ck; auto].
Qed.
Print Assumptions C40_monotone.
Example C40_ex :
  let h20 := repeat 1 20 in let h32 := repeat 2 32 in
  let plain := QKey [5] (Some h20) (Some h32) (Some [5]) None in
  let cert := QKey [6] (Some [0]) (Some [0]) (Some [6]) (Some (0, [97; 98], plain)) in
  map (fun ops => (ssh_krl_check_key (kruns ssh_krl_init ops) plain, ssh_krl_check_key (kruns ssh_krl_init ops) cert))
    [[]; [KSha1 h20]; [KSha256 h32]; [KSha1 h32]; [KExplicit plain]; [KKey cert]; [KKeyId None [97; 98]]; [KKeyId (Some [9]) [97; 98]]; [KSerials None 1 5]; [KVersion 3; KComment [1]]]
  = [(KOk, KOk); (KRevoked, KRevoked); (KRevoked, KRevoked); (KOk, KOk); (KRevoked, KRevoked); (KOk, KRevoked); (KOk, KRevoked); (KOk, KOk); (KOk, KOk); (KOk, KOk)].
Proof. reflexivity. Qed.

(** ** C38 *)
(** Writing any list that was built through the interface and reading it back:
    - if it can be read, every question gets the same answer as before, and
      version and comment are kept (a missing comment reads as the empty one);
    - it can be read unless some CA has revoked serials 16384 or more apart.
    [kfb] is sshkey_from_blob, which must recover the CA keys of the list. *)
Theorem C38_same_answers : forall kfb now ops b, Forall kop_ok ops -> ca_keys_read kfb ops -> 0 <= now < U64 ->
  ssh_krl_to_blob now (kruns ssh_krl_init ops) = Some b ->
  let k := kruns ssh_krl_init ops in
  match ssh_krl_from_blob kfb b with
  | POk k' => (forall q, ssh_krl_check_key k' q = ssh_krl_check_key k q) /\ k_version k' = k_version k /\ k_date k' = now /\ k_flags k' = k_flags k /\
              k_comment k' = Some (match k_comment k with Some c => c | None => [] end)
  | PErr => exists ca lo hi, serial_said ops ca lo /\ serial_said ops ca hi /\ 16384 <= hi - lo
  | PFuel => False
  end.
Proof.
  intros kfb now ops b A R Hn H k. pose proof (holds_runs ops A) as Ho. fold k in Ho, H. destruct Ho as [W S I K1 K2 K3 V D F C].
  destruct (blob_ok kfb now k b) as [(k' & E & W' & Sc & Q1 & Q2 & Q3 & Q4)|[(rc & Hrc & Sp) E]]; try assumption.
  - apply (runs_ca (fun ca => ca_reads kfb ca)). rewrite Forall_forall. intros o Hin. unfold ca_reads. destruct (op_ca o) as [x|] eqn:Eo; [|exact Logic.I]. now apply (R o).
  - rewrite Forall_forall. intros h Hh. apply K2 in Hh as (o & _ & Q). destruct o; cbn [op_sha1] in Q; try contradiction. apply Q.
  - rewrite Forall_forall. intros h Hh. apply K3 in Hh as (o & _ & Q). destruct o; cbn [op_sha256] in Q; try contradiction. apply Q.
  - rewrite D. unfold U64. lia.
  - rewrite F. unfold U64. lia.
  - rewrite E. split; [intros q; symmetry; now apply same_check|]. split; [exact Q1|]. split; [|auto]. rewrite Q2. unfold stamp. rewrite D. reflexivity.
  - rewrite E. unfold rc_span in Sp.
    (* the span of a finite list of ranges is decided by its ends *)
    assert (Dec : forall l, (exists x y, inr x l /\ inr y l /\ 16384 <= y - x) \/ (forall x y, inr x l -> inr y l -> y - x < 16384)).
    { assert (One : forall e l, (exists y, inr y l /\ 16384 <= y - e) \/ (forall y, inr y l -> y - e < 16384)).
      { intros e l. induction l as [|[a c] l IH]; [right; intros y Q; now apply inr_nil in Q|]. destruct IH as [(y & Q1 & Q2)|IH]; [left; exists y; split; [apply inr_cons; now right|exact Q2]|].
        destruct (Z.le_gt_cases a c) as [L|L]; [destruct (Z.le_gt_cases 16384 (c - e)) as [M|M]|].
        - left. exists c. split; [apply inr_cons; left; cbn [fst snd]; lia|exact M].
        - right. intros y Q. apply inr_cons in Q as [Q|Q]; [cbn [fst snd] in Q; lia|now apply IH].
        - right. intros y Q. apply inr_cons in Q as [Q|Q]; [cbn [fst snd] in Q; lia|now apply IH]. }
      intros l0. assert (All : forall l, (exists x y, inr x l /\ inr y l0 /\ 16384 <= y - x) \/ (forall x y, inr x l -> inr y l0 -> y - x < 16384)).
      { induction l as [|[a c] l IH]; [right; intros x y Q; now apply inr_nil in Q|]. destruct IH as [(x & y & Q1 & Q2 & Q3)|IH]; [left; exists x, y; split; [apply inr_cons; now right|auto]|].
        destruct (Z.le_gt_cases a c) as [L|L].
        - destruct (One a l0) as [(y & Q1 & Q2)|O]; [left; exists a, y; split; [apply inr_cons; left; cbn [fst snd]; lia|auto]|].
          right. intros x y Qx Qy. apply inr_cons in Qx as [Qx|Qx]; [cbn [fst snd] in Qx; specialize (O y Qy); lia|now apply IH].
        - right. intros x y Qx Qy. apply inr_cons in Qx as [Qx|Qx]; [cbn [fst snd] in Qx; lia|now apply IH]. }
      apply All. }
    destruct (Dec (rc_serials rc)) as [(x & y & Qx & Qy & Q)|N]; [|contradiction]. exists (rc_ca rc), x, y. split; [apply S; exists rc; auto|]. split; [apply S; exists rc; auto|exact Q].
Qed.
Print Assumptions C38_same_answers.

(** Reading any byte string whatever ends. *)
Theorem C38_reader_ends : forall kfb b, ssh_krl_from_blob kfb b <> PFuel.
Proof. intros kfb b. apply from_blob_fuel. Qed.
Print Assumptions C38_reader_ends.

(** The full property fails: with every second serial from 2 to 16386 or beyond
    revoked, the writer produces one bitmap of more than 2048 bytes, which the
    reader (sshbuf_get_bignum2_bytes_direct) refuses.  So a list can be written
    that cannot be read at all. *)
Theorem C38_round_trip_refuted : forall kfb now n, 8193 <= Z.of_nat n <= 8388608 -> 0 <= now < U64 ->
  let ops := map (fun j => KSerials None (2 * Z.of_nat j + 2) (2 * Z.of_nat j + 2)) (seq 0 n) in
  Forall kop_ok ops /\ exists b, ssh_krl_to_blob now (kruns ssh_krl_init ops) = Some b /\ ssh_krl_from_blob kfb b = PErr.
Proof.
  intros kfb now n B Hn ops. split.
  - unfold ops. rewrite Forall_forall. intros o Ho. apply in_map_iff in Ho as (j & <- & Hj). apply in_seq in Hj. cbn [kop_ok ca_arg]. unfold U64. lia.
  - apply alt_unreadable; lia.
Qed.
Print Assumptions C38_round_trip_refuted.
Example C38_round_trip_refuted_ex : 8193 <= Z.of_nat (Z.to_nat 8193) <= 8388608.
Proof. rewrite Z2Nat.id; lia. Qed.

(** A list using all three kinds of serial section, key ids and hashes. *)
Definition ex38 := [KVersion 7; KComment [104; 105]; KSerials (Some [1; 2]) 1 1; KSerials (Some [1; 2]) 3 3; KSerials (Some [1; 2]) 5 9; KSerials (Some [1; 2]) 1000 5000;
  KSerials (Some [1; 2]) 1000000 1000000; KSerials (Some [1; 2]) 2000000 2000000; KSerials None 40 40; KKeyId None [97]; KKeyId None []; KSha1 (repeat 1 20); KSha256 (repeat 2 32); KExplicit (ex_cert 1)].
Example C38_ex :
  match ssh_krl_to_blob 1000 (kruns ssh_krl_init ex38) with
  | None => False
  | Some b => match ssh_krl_from_blob (fun x => Some x) b with
              | POk k' => k_certs k' = k_certs (kruns ssh_krl_init ex38) /\ k_keys k' = [[3; 4]] /\ zlen b = 243
              | _ => False
              end
  end.
Proof. vm_compute. auto. Qed.
