(** Properties C10, C11 and C15: wildcard patterns, pattern lists, negotiation
    of name lists. *)
From Coq Require Import String Permutation.
From Verif Require Import Base Text MatchModel MatchSpec MatchProof.

(** C10. *)
Theorem C10_glob : forall s p, match_pattern s p = true <-> glob p s.
Proof. exact match_pattern_glob. Qed.
Print Assumptions C10_glob.

Example C10_case : match_pattern (bs "host-12.example.org") (bs "host-??.*.org") = true /\
  match_pattern (bs "ab") (bs "*?a*") = false /\ glob (bs "*?b") (bs "aab").
Proof.
  splits; [reflexivity|reflexivity|]. apply match_pattern_glob. reflexivity.
Qed.

(** C11.  The matcher ends with one of three verdicts. *)
Theorem C11_total : forall s p d, exists r, match_pattern_list s p d = Some r /\ (r = -1 \/ r = 0 \/ r = 1).
Proof. intros. rewrite match_pattern_list_entries. eexists. split; [reflexivity|]. apply mpl_spec_values. Qed.
Print Assumptions C11_total.

(** C11.  If every pattern fits, 'denied' (-1) means some negated pattern covers
    the name, 'match' (1) that none does and some other pattern covers it, and
    'no match' (0) everything else. *)
Theorem C11_list : forall s p d, Forall fits (entries p) ->
  (match_pattern_list s p d = Some (-1) <-> some_negative d s (entries p)) /\
  (match_pattern_list s p d = Some 1 <-> ~ some_negative d s (entries p) /\ some_positive d s (entries p)) /\
  (match_pattern_list s p d = Some 0 <-> ~ some_negative d s (entries p) /\ ~ some_positive d s (entries p)).
Proof.
  intros s p d H. rewrite match_pattern_list_entries. destruct (mpl_spec_fits s d (entries p) false H) as [H1 H2].
  pose proof (mpl_spec_values s d (entries p) false) as HV. set (v := mpl_spec s d false (entries p)) in *.
  assert (HS : forall k, Some v = Some k <-> v = k) by (intros; split; congruence). rewrite !HS.
  assert (H2' : v = 1 <-> ~ some_negative d s (entries p) /\ some_positive d s (entries p)).
  { rewrite H2. split; [intros [A [B|B]]; [discriminate|auto]|tauto]. }
  splits; auto. split.
  - intros E. split; intros A; [apply H1 in A; lia|].
    assert (v = 1); [|lia]. apply H2'. split; [|assumption]. intros B. apply H1 in B. lia.
  - intros [A B]. destruct HV as [E|[E|E]]; [|assumption|]; exfalso; [apply A, H1, E|apply B, H2', E].
Qed.
Print Assumptions C11_list.

(** C11.  The order of the patterns does not matter. *)
Theorem C11_order : forall s p q d, Permutation (entries p) (entries q) -> Forall fits (entries p) ->
  match_pattern_list s p d = match_pattern_list s q d.
Proof.
  intros s p q d HP Hf. assert (Hfq : Forall fits (entries q)) by (rewrite Forall_forall in *; intros e He; apply Hf; now apply (Permutation_in _ (Permutation_sym HP))).
  assert (SN : some_negative d s (entries p) <-> some_negative d s (entries q)).
  { unfold some_negative. split; intros (e & He & R); exists e; (split; [|exact R]); [now apply (Permutation_in _ HP)|now apply (Permutation_in _ (Permutation_sym HP))]. }
  assert (SP : some_positive d s (entries p) <-> some_positive d s (entries q)).
  { unfold some_positive. split; intros (e & He & R); exists e; (split; [|exact R]); [now apply (Permutation_in _ HP)|now apply (Permutation_in _ (Permutation_sym HP))]. }
  destruct (C11_list s p d Hf) as (A1 & A2 & A3). destruct (C11_list s q d Hfq) as (B1 & B2 & B3).
  destruct (C11_total s p d) as (r & E & [-> | [-> | ->]]); rewrite E; symmetry.
  - apply B1, SN, A1, E.
  - apply B3. rewrite <- SN, <- SP. apply A3, E.
  - apply B2. rewrite <- SN, <- SP. apply A2, E.
Qed.
Print Assumptions C11_order.

(** C11.  A pattern of 1023 characters or more ends the list: no match is
    reported, and only the negated patterns before it still count. *)
Theorem C11_long : forall s p d pre e post, entries p = pre ++ e :: post -> Forall fits pre -> ~ fits e ->
  (match_pattern_list s p d = Some (-1) <-> some_negative d s pre) /\ match_pattern_list s p d <> Some 1.
Proof.
  intros s p d pre e post E Hf He. rewrite match_pattern_list_entries, E.
  destruct (mpl_spec_long s d pre e post false Hf He) as [H1 H2]. split; [|congruence].
  rewrite <- H1. split; congruence.
Qed.
Print Assumptions C11_long.

(** C11 for host names: both sides are compared in lower case. *)
Theorem C11_hostname : forall h p, Forall fits (entries p) ->
  (match_hostname h p = Some (-1) <-> some_negative true (map tolower h) (entries p)) /\
  (match_hostname h p = Some 1 <-> ~ some_negative true (map tolower h) (entries p) /\ some_positive true (map tolower h) (entries p)).
Proof. intros h p H. destruct (C11_list (map tolower h) p true H) as (A & B & _). auto. Qed.
Print Assumptions C11_hostname.

Example C11_case :
  entries (bs "*.example.org,!Bad.*,") = [bs "*.example.org"; bs "!Bad.*"] /\
  match_hostname (bs "bad.example.org") (bs "*.example.org,!Bad.*,") = Some (-1) /\
  match_hostname (bs "Good.example.org") (bs "*.example.org,!Bad.*,") = Some 1 /\
  match_hostname (bs "example.org") (bs "*.example.org,!Bad.*,") = Some 0.
Proof. splits; reflexivity. Qed.
Example C11_case_fits : Forall fits (entries (bs "*.example.org,!Bad.*,")).
Proof. repeat constructor; unfold fits; cbn; lia. Qed.
Example C11_case_long : exists pre e post, entries (bs "!a," ++ repeat 120 1023 ++ bs ",*") = pre ++ e :: post /\ Forall fits pre /\ ~ fits e.
Proof.
  exists [bs "!a"], (repeat 120 1023), [bs "*"]. splits.
  - vm_compute. reflexivity.
  - repeat constructor.
  - unfold fits. apply Nat.ltb_nlt. vm_compute. reflexivity.
Qed.

(** C15.  The result of negotiating two lists is the first name of the client's
    list that is in the server's; None if there is none.  [names] stops at an
    empty name; only the server's first 40 names are looked at. *)
Theorem C15_choice : forall client server,
  (forall n, match_list client server = Some n <-> first_common (names client) (firstn 40 (names server)) n) /\
  (match_list client server = None <-> forall n, In n (names client) -> ~ In n (firstn 40 (names server))).
Proof.
  intros client server. pose proof (match_list_spec client server) as H.
  destruct (match_list client server) as [m|]; split.
  - intros n. split; [intros [= <-]; assumption|]. intros Hn. f_equal. eapply first_common_fun; eauto.
  - split; [discriminate|]. intros Hn. destruct H as (a & b & E & Hi & _). exfalso. apply (Hn m); [rewrite E; apply in_or_app; right; now left|assumption].
  - intros n. split; [discriminate|]. intros (a & b & E & Hi & _). exfalso. apply (H n); [rewrite E; apply in_or_app; right; now left|assumption].
  - split; auto.
Qed.
Print Assumptions C15_choice.

(** C15 for proper lists: names without commas, at most 40 on the server's side. *)
Theorem C15_proper : forall cl sv, Forall (fun f => f <> [] /\ ~ In 44 f) cl -> Forall (fun f => f <> [] /\ ~ In 44 f) sv ->
  (length sv <= 40)%nat ->
  (forall n, match_list (join 44 cl) (join 44 sv) = Some n <-> first_common cl sv n) /\
  (match_list (join 44 cl) (join 44 sv) = None <-> forall n, In n cl -> ~ In n sv).
Proof.
  intros cl sv Hc Hs Hl. pose proof (C15_choice (join 44 cl) (join 44 sv)) as H.
  rewrite !names_join in H by assumption. now rewrite firstn_all2 in H by assumption.
Qed.
Print Assumptions C15_proper.

(** Beyond 40 names the full statement fails. *)
Theorem C15_long_server_list_refuted : exists cl sv,
  Forall (fun f => f <> [] /\ ~ In 44 f) cl /\ Forall (fun f => f <> [] /\ ~ In 44 f) sv /\
  (exists n, first_common cl sv n) /\ match_list (join 44 cl) (join 44 sv) = None.
Proof.
  exists [[200]], (map (fun i => [Z.of_nat i + 160]) (seq 0 41)). splits.
  - constructor; [|constructor]. split; [discriminate|]. cbn. intros [|[]]. discriminate.
  - apply Forall_forall. intros f Hf. apply in_map_iff in Hf. destruct Hf as (i & <- & _). split; [discriminate|]. cbn. intros [|[]]. lia.
  - exists [200], [], []. splits; auto; try (intros x []). apply in_map_iff. exists 40%nat. split; [reflexivity|]. apply in_seq. lia.
  - vm_compute. reflexivity.
Qed.
Print Assumptions C15_long_server_list_refuted.

(** C15, resuming: the reported position is the one after the chosen name and its
    comma, so what is left of the client's list are exactly the fields after it. *)
Theorem C15_next : forall client server n nx, match_list_next client server = Some (n, nx) ->
  0 <= nx <= zlen client /\
  exists a b, split 44 client = a ++ n :: b /\ zdrop nx client = join 44 b.
Proof.
  intros client server n nx H. unfold match_list_next, COMMA in H.
  set (sv := firstn MAX_PROP (until_empty (split 44 server))) in H.
  assert (Hne : split 44 client <> []) by (destruct (split_cons 44 client) as (f & fs & ->); discriminate).
  destruct (ml_scan_next (split 44 client) sv [] n nx client (join_split 44 client) Hne H) as (a & b & E & Hz & Hr).
  split; [assumption|]. eauto.
Qed.
Print Assumptions C15_next.

Example C15_case : match_list (bs "curve25519,ecdh,dh") (bs "dh,ecdh") = Some (bs "ecdh") /\
  match_list_next (bs "curve25519,ecdh,dh") (bs "dh,ecdh") = Some (bs "ecdh", 16) /\
  match_list (bs "a,b") (bs "c") = None.
Proof. splits; reflexivity. Qed.
