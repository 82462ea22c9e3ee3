(** C86: the exchange of identification strings. *)
From Coq Require Import String.
From Verif Require Import Base Text IdentModel IdentSpec IdentProof.
Local Open Scope Z_scope.

(** What counts as the peer's version: the text of the first line that identifies an
    implementation, after fewer than 1024 other lines at a client and none at a server;
    all after its newline is left to the packets *)
Theorem C86_exact : forall scan unwanted server s v rest,
  exchange scan unwanted server s = XPeer v rest <->
  (exists n pre t, (n < 1024)%nat /\ (server = true -> n = 0%nat) /\ preamble n pre /\ line v t /\ identifies v /\ s = pre ++ t ++ rest) /\
  exists major minor soft, scan v = Some (major, minor, soft) /\ (major = 2 \/ (major = 1 /\ minor = 99)) /\ (server = true -> unwanted soft = false).
Proof.
  intros scan unwanted server s v rest. unfold exchange. rewrite <- (ident_iff 1024 server s v rest). change 1024%nat with max_lines.
  destruct (read_ident max_lines server s) as [| |l r].
  1, 2: split; [discriminate|intros (X & _); discriminate].
  split.
  - intros H. destruct (scan l) as [((major, minor), soft)|] eqn:E; [|discriminate].
    destruct (negb ((major =? 2) || ((major =? 1) && (minor =? 99)))) eqn:M; [discriminate|]. destruct (server && unwanted soft) eqn:U; [discriminate|].
    injection H as <- <-. split; [reflexivity|]. exists major, minor, soft. splits; auto.
    + apply negb_false_iff in M. apply orb_true_iff in M. rewrite andb_true_iff, !Z.eqb_eq in M. exact M.
    + intros ->. exact U.
  - intros (X & major & minor & soft & E & M & U). injection X as <- <-. rewrite E.
    replace (negb ((major =? 2) || ((major =? 1) && (minor =? 99)))) with false by (symmetry; apply negb_false_iff; apply orb_true_iff; rewrite andb_true_iff, !Z.eqb_eq; exact M).
    destruct server; [rewrite (U eq_refl)|]; reflexivity.
Qed.
Print Assumptions C86_exact.

(** Both sides record the same two strings: what one sends is what the other takes for
    its version, and not a byte of what follows is lost *)
Theorem C86_agree : forall scan unwanted server soft addendum rest, line_text (our_version soft addendum) ->
  soft <> [] -> (forall v, v <> [] -> scan (bs "SSH-2.0-" ++ v) = Some (2, 0, v)) -> (forall x, unwanted (soft ++ x) = false) ->
  exchange scan unwanted server (our_banner soft addendum ++ rest) = XPeer (our_version soft addendum) rest.
Proof.
  intros scan unwanted server soft addendum rest L N Sc U. apply C86_exact. split.
  - exists 0%nat, [], (our_version soft addendum ++ repeat 13 1 ++ [10]). splits; auto.
    + lia.
    + constructor.
    + split; [assumption|]. exists 1%nat. reflexivity.
    + exists (bs "2.0-" ++ soft ++ (if zlen addendum =? 0 then [] else 32 :: addendum)). split; [discriminate|reflexivity].
  - exists 2, 0, (soft ++ (if zlen addendum =? 0 then [] else 32 :: addendum)). splits; auto. apply Sc. destruct soft; [congruence|discriminate].
Qed.
Print Assumptions C86_agree.

(** One reading: no input can be divided in two ways into lines to skip, a version and
    the rest *)
Theorem C86_one_reading : forall n pre v t rest n' pre' v' t' rest',
  preamble n pre -> line v t -> identifies v -> preamble n' pre' -> line v' t' -> identifies v' ->
  pre ++ t ++ rest = pre' ++ t' ++ rest' -> v = v' /\ rest = rest'.
Proof.
  intros n pre v t rest n' pre' v' t' rest' P L I P' L' I' E.
  assert (A : read_ident (S (n + n')) false (pre ++ t ++ rest) = IOk v rest) by (apply ident_iff; exists n, pre, t; splits; auto; [lia|discriminate]).
  assert (B : read_ident (S (n + n')) false (pre ++ t ++ rest) = IOk v' rest') by (apply ident_iff; exists n', pre', t'; splits; auto; [lia|discriminate]).
  rewrite A in B. injection B as <- <-. auto.
Qed.
Print Assumptions C86_one_reading.

(** A decision stands, whatever arrives later and however the input is cut up *)
Theorem C86_later : forall scan unwanted server s more, exchange scan unwanted server s <> XWait ->
  exchange scan unwanted server (s ++ more) = match exchange scan unwanted server s with XPeer v r => XPeer v (r ++ more) | x => x end.
Proof.
  intros scan unwanted server s more H. unfold exchange in *.
  assert (N : read_ident max_lines server s <> IMore) by (intros E; rewrite E in H; congruence). rewrite (ident_more _ _ _ _ N).
  destruct (read_ident max_lines server s) as [| |l r]; [congruence|reflexivity|].
  destruct (scan l) as [((major, minor), soft)|]; [|reflexivity]. destruct (negb ((major =? 2) || ((major =? 1) && (minor =? 99)))); [reflexivity|].
  destruct (server && unwanted soft); reflexivity.
Qed.
Print Assumptions C86_later.

(** A server closes the connection at the first line that is not an identification *)
Theorem C86_server : forall scan unwanted l t rest, line l t -> ~ identifies l -> exchange scan unwanted true (t ++ rest) = XInvalid.
Proof.
  intros scan unwanted l t rest L N. unfold exchange, max_lines. 
  assert (R : read_line [] false (t ++ rest) = LLine l rest) by (apply line_first; exists t; auto).
  assert (Q : is_ident l = false) by (destruct (is_ident l) eqn:Q; [apply is_ident_iff in Q; contradiction|reflexivity]).
  cbn [read_ident]. rewrite R, Q. reflexivity.
Qed.
Print Assumptions C86_server.

(** A NUL, anything but a newline after a carriage return, or a byte more than 8192 in a
    line is refused at once, at either side *)
Theorem C86_bad : forall scan unwanted server n pre x k c rest, (n < 1024)%nat -> (server = true -> n = 0%nat) -> preamble n pre -> line_text x ->
  c <> 10 -> c <> 13 -> c = 0 \/ (0 < k)%nat \/ zlen x = 8192 ->
  exchange scan unwanted server (pre ++ x ++ repeat 13 k ++ c :: rest) = XInvalid.
Proof.
  intros scan unwanted server n pre x k c rest L S P (F & X) N10 N13 D.
  assert (R : read_line [] false (x ++ repeat 13 k ++ c :: rest) = LBad).
  { rewrite read_text by (try assumption; unfold zlen at 1; cbn [length]; lia). rewrite read_crs. cbn [orb app read_line].
    apply Z.eqb_neq in N10, N13. rewrite N10, N13. destruct (Z.eqb_spec c 0) as [E0|E0]; [reflexivity|]. destruct k as [|k]; [|reflexivity]. cbn [Nat.eqb negb orb].
    destruct D as [D|[D|D]]; [congruence|lia|]. replace (8192 <? zlen (x ++ [c])) with true by (symmetry; apply Z.ltb_lt; rewrite zlen_snoc; lia). reflexivity. }
  unfold exchange. replace (read_ident max_lines server (pre ++ x ++ repeat 13 k ++ c :: rest)) with IBad; [reflexivity|]. symmetry.
  change max_lines with 1024%nat. revert L. generalize 1024%nat. induction P as [|n l t r Li N P IH]; intros [|m] L; try lia; cbn [read_ident].
  - cbn [app]. rewrite R. reflexivity.
  - destruct server; [discriminate (S eq_refl)|].
    assert (K : read_line [] false ((t ++ r) ++ x ++ repeat 13 k ++ c :: rest) = LLine l (r ++ x ++ repeat 13 k ++ c :: rest)) by (apply line_first; exists t; split; [assumption|rewrite <- app_assoc; reflexivity]).
    assert (Q : is_ident l = false) by (destruct (is_ident l) eqn:Q; [apply is_ident_iff in Q; contradiction|reflexivity]).
    rewrite K, Q. apply IH; [discriminate|lia].
Qed.
Print Assumptions C86_bad.

(** A client gives up after 1024 lines without an identification *)
Theorem C86_many : forall scan unwanted pre rest, preamble 1024 pre -> exchange scan unwanted false (pre ++ rest) = XInvalid.
Proof. intros scan unwanted pre rest P. unfold exchange. unfold max_lines. rewrite (too_many _ _ _ P). reflexivity. Qed.
Print Assumptions C86_many.

(** What cannot be parsed, has another version, or is a probe is refused as such *)
Theorem C86_refused : forall scan unwanted server n pre v t rest, (n < 1024)%nat -> (server = true -> n = 0%nat) -> preamble n pre -> line v t -> identifies v ->
  (scan v = None -> exchange scan unwanted server (pre ++ t ++ rest) = XInvalid) /\
  (forall major minor soft, scan v = Some (major, minor, soft) -> major <> 2 -> (major = 1 -> minor <> 99) -> exchange scan unwanted server (pre ++ t ++ rest) = XMismatch) /\
  (forall minor soft, scan v = Some (2, minor, soft) -> unwanted soft = true -> server = true -> exchange scan unwanted server (pre ++ t ++ rest) = XClosed).
Proof.
  intros scan unwanted server n pre v t rest L S P T I.
  assert (K : read_ident max_lines server (pre ++ t ++ rest) = IOk v rest) by (apply ident_iff; exists n, pre, t; splits; auto).
  unfold exchange. rewrite K. splits.
  - intros ->. reflexivity.
  - intros major minor soft -> N1 N2. replace (major =? 2) with false by (symmetry; apply Z.eqb_neq; assumption).
    destruct (Z.eqb_spec major 1) as [Q|Q]; [|reflexivity]. replace (minor =? 99) with false by (symmetry; apply Z.eqb_neq; auto). reflexivity.
  - intros minor soft -> U ->. rewrite U. reflexivity.
Qed.
Print Assumptions C86_refused.

(** Refuted: that what is read before the identification is bounded.  Carriage returns
    do not count: any number of them keeps the other side reading *)
Theorem C86_bound_refuted : forall scan unwanted server n, exchange scan unwanted server (repeat 13 n) = XWait.
Proof. intros. unfold exchange, max_lines. cbn [read_ident]. rewrite crs. reflexivity. Qed.
Print Assumptions C86_bound_refuted.

(** ** Examples *)
Definition sc (l : list Z) : option (Z * Z * list Z) := if beqb (ztake 8 l) (bs "SSH-2.0-") then Some (2, 0, zdrop 8 l) else None.
Example C86_runs :
  exchange sc (fun _ => false) false (bs "hello" ++ [13; 13; 10] ++ bs "SSH-2.0-x y" ++ [10; 1; 2]) = XPeer (bs "SSH-2.0-x y") [1; 2] /\
  exchange sc (fun _ => false) true (bs "hello" ++ [10]) = XInvalid /\
  exchange sc (fun _ => false) true (bs "SSH-2.0-x" ++ [13; 65; 10]) = XInvalid /\
  exchange sc (fun _ => false) true (bs "SSH-2.0") = XWait /\ line_text (our_version (bs "OpenSSH_10") (bs "x")).
Proof. splits; try reflexivity. split; [vm_compute; repeat constructor; discriminate|vm_compute; discriminate]. Qed.
Example C86_agrees : forall rest,
  exchange sc (fun _ => false) true (our_banner (bs "OpenSSH_10") (bs "x") ++ rest) = XPeer (bs "SSH-2.0-OpenSSH_10 x") rest.
Proof.
  intros rest. apply (C86_agree sc (fun _ => false) true (bs "OpenSSH_10") (bs "x") rest); [apply C86_runs|discriminate| |reflexivity].
  intros v _. unfold sc. rewrite ztake_app_exact, zdrop_app_exact by reflexivity. reflexivity.
Qed.
