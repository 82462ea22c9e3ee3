(** C75: what scp writes when it receives a copy, whoever sends it. *)
From Coq Require Import String.
From Verif Require Import Base Text AddrModel MiscNumModel ScpModel ScpSpec ScpProof ScpProof2 ScpProof3.
Local Open Scope Z_scope.

Lemma happens_good : forall Os C targ i before e, happens (sink Os C targ (start i)) before e ->
  exists pats, (pats = match c_src C with
          | Some src => if negb (c_r C) && negb (c_T C) then match expand src with XOk l => l | _ => [] end else []
          | None => []
          end) /\ good Os C targ pats before e.
Proof.
  intros Os C targ i before e (after & H). destruct (sink_inv Os C targ i) as (pats & E & I). exists pats. split; [exact E|].
  destruct (sink Os C targ (start i)) as [s|s|]; cbn [inv_res trace] in *; [| |destruct after; discriminate]; (eapply all_ev_happens; [apply I|exact H]).
Qed.

(** Whatever the peer sends and the system answers, every path named in a call
    is the target or below it by names that stay in their directory; without -r
    it is the target or directly in it and no directory is made or changed. *)
Theorem C75_confined : forall Os C targ i before e p, happens (sink Os C targ (start i)) before e -> names e = Some p ->
  within targ p /\ (c_r C = false -> at_or_in targ p) /\ (makes_dir e = true -> c_r C = true).
Proof.
  intros Os C targ i before e p H N. destruct (happens_good _ _ _ _ _ _ H) as (pats & _ & (G1 & G2 & _)). destruct (G1 p N) as (P1 & P2).
  split; [assumption|]. split; [|assumption]. intros R. destruct (P2 R) as [-> | (n & A & _ & B)]; [now left|]. right. exists n. split; assumption.
Qed.

(** Without -r and -T, the names are those asked for. *)
Theorem C75_requested : forall Os C targ i before e p gs, c_r C = false -> c_T C = false -> c_src C = Some (request gs) -> Forall seg_ok gs ->
  happens (sink Os C targ (start i)) before e -> names e = Some p ->
  p = targ \/ exists n x b, plain_name n /\ p = path targ [n] /\ choice gs x /\ base_of x b /\ (b = n \/ c_fnmatch C b n = true).
Proof.
  intros Os C targ i before e p gs R T Hsrc Ok H N. destruct (happens_good _ _ _ _ _ _ H) as (pats & E & (G1 & _)). destruct (G1 p N) as (_ & P2).
  destruct (P2 R) as [-> | (n & A & X & B)]; [now left|]. right. rewrite Hsrc, R, T in E. cbn [negb andb] in E.
  destruct (braces (nalts gs) gs (S (length (request gs))) eq_refl Ok ltac:(lia)) as (l & Hl & Hi). unfold expand in E. rewrite Hl in E. subst pats.
  destruct X as [-> | (b & Hb & X)].
  - exfalso. assert (Ex : exists x, choice gs x).
    { clear -Ok. induction gs as [|[s|l] gs IH]; [now exists []| |]; inversion Ok; subst; destruct (IH H2) as (x & Hx); cbn [choice]; [eauto|].
      destruct H1 as (Hne & _). destruct l as [|a l]; [congruence|]. exists (a ++ x), a, x. splits; [now left|assumption|reflexivity]. }
    destruct Ex as (x & Hx). assert (In (last_component x) []) by (apply Hi; exists x; split; [assumption|now apply base_of_last]). assumption.
  - apply Hi in Hb. destruct Hb as (x & Hx & Hb). exists n, x, b. splits; assumption.
Qed.

(** Without -p, permissions stay within the umask but for the owner's bits while
    a file is written, and no call changes the mode of what was there before. *)
Theorem C75_modes : forall Os C targ i before e, c_p C = false -> happens (sink Os C targ (start i)) before e ->
  (forall m, gives e = Some m -> Z.land (Z.land m (c_umask C)) (Z.lnot 448) = 0) /\
  (changes_mode e -> forall p m, names e = Some p -> gives e = Some m ->
     Z.land m (c_umask C) = 0 /\ exists b1 b2, before = b1 ++ EStat p :: b2 /\ os_stat Os (EStat p :: b2) = None).
Proof.
  intros Os C targ i before e P H. destruct (happens_good _ _ _ _ _ _ H) as (pats & _ & (_ & _ & G)). destruct (G P) as (M & A). split.
  - intros m E. now apply M.
  - intros Hc p m Hn Hg. split; [now apply M|]. now apply A.
Qed.

(** Success is not reported if a call on a file, or the making of a directory,
    failed. *)
Theorem C75_reported : forall Os C targ i before e, reports_success (sink Os C targ (start i)) ->
  happens (sink Os C targ (start i)) before e -> file_call e -> os_ok Os (e :: before) = true.
Proof.
  intros Os C targ i before e (s & E & Z) (after & H) F. destruct (sink_inv Os C targ i) as (pats & _ & I). rewrite E in *. cbn [inv_res trace] in *.
  destruct I as (_ & _ & _ & _ & I). destruct (os_ok Os (e :: before)) eqn:O; [reflexivity|]. pose proof (I (failed_happens _ _ _ _ _ H F O)). lia.
Qed.

(** The receiver comes to an end on every input. *)
Theorem C75_total : forall Os C targ i, sink Os C targ (start i) <> Fuel.
Proof.
  intros Os C targ i. unfold sink. destruct (enter Os C targ (start i)) as [s1 [d|]]; [|discriminate].
  assert (L : forall pats, loop Os C (S (length (inp s1))) targ d pats None s1 <> Fuel) by (intros pats; apply go_total).
  destruct (c_src C) as [src|]; [|apply L]. destruct (negb (c_r C) && negb (c_T C)); [|apply L].
  pose proof (brace_fuel (S (length src)) src ltac:(lia)). unfold expand. destruct (brace_expand (S (length src)) src); [apply L|discriminate|congruence].
Qed.

(** What the receiver was told to accept: anything with -r; else files, and
    without -T only files asked for. *)
Definition asked (C : conf) (t : tree) : Prop :=
  c_r C = true \/
  ((exists n m tm d, t = TFile n m tm d) /\
   (c_src C = None \/ c_T C = true \/ exists gs x, c_src C = Some (request gs) /\ Forall seg_ok gs /\ choice gs x /\ base_of x (tname t))).
Definition place_of (targ : list Z) (t : tree) : list Z := path targ [tname t].

Lemma pats_adm : forall C t, asked C t -> exists pats,
  (match c_src C with Some src => if negb (c_r C) && negb (c_T C) then expand src else XOk [] | None => XOk [] end) = XOk pats /\ adm C pats t.
Proof.
  intros C t [R|((n & m & tm & d & ->) & A)].
  - exists []. rewrite R. cbn [negb andb]. split; [destruct (c_src C); reflexivity|]. left. now split.
  - destruct (c_src C) as [src|] eqn:Hsrc; [|exists []; split; [reflexivity|right; exists n, m, tm, d; split; reflexivity]].
    destruct (negb (c_r C) && negb (c_T C)) eqn:B; [|exists []; split; [reflexivity|right; exists n, m, tm, d; split; reflexivity]].
    destruct A as [A|[A|(gs & x & E & Ok & Hx & Hb)]]; [discriminate|rewrite A, andb_false_r in B; discriminate|]. inversion E; subst.
    destruct (braces (nalts gs) gs (S (length (request gs))) eq_refl Ok ltac:(lia)) as (l & Hl & Hi). exists l. split; [exact Hl|]. right. exists n, m, tm, d. split; [reflexivity|].
    unfold name_ok. apply orb_true_iff. right. apply existsb_exists. exists n. split; [apply Hi; exists x; split; assumption|]. rewrite beqb_refl. reflexivity.
Qed.

(** A copy into a directory: if no call fails, everything sent arrives with its
    contents, permissions and, when sent, times; the receiver gives the answers
    the sender waits for and reports success; nothing else changes but the times
    of the directories above. *)
Theorem C75_copy : forall Os C w targ sp ts, works Os C w -> (exists x, w targ = Some x /\ n_dir x = true) -> ts <> [] ->
  Forall sendable ts -> NoDup (map tname ts) -> Forall (asked C) ts ->
  (forall t, In t ts -> forall ns k d m tm, has t ns k d m tm -> fits w (path (place_of targ t) ns) k) ->
  exists s, sink Os C targ (start (flat_map (send sp) ts)) = Done s /\ errs s = 0 /\
    answers (tr s) = repeat EOk (1 + list_sum (map (replies sp) ts)) /\
    let w' := replay (in_force C) w (tr s) in
    (forall t, In t ts -> arrived C sp w w' (place_of targ t) t) /\
    (forall q, (forall t, In t ts -> q <> place_of targ t /\ above (place_of targ t) q = false) ->
       same_but_time (w' q) (w q) /\ ((forall t, In t ts -> above q (place_of targ t) = false) -> w' q = w q)).
Proof.
  intros Os C w targ sp ts HW (x & Hx & Hd) Hne Hs Hnd Ha Hf.
  assert (PL : forall t, path_of targ true (tname t) = place_of targ t) by (intros t; apply (path_of_path targ [] (tname t)); constructor).
  destruct (enter_ok Os C w HW targ (start (flat_map (send sp) ts)) x) as (s1 & E1 & I1 & K1 & W1); [exact Hx|exact Hd|reflexivity|].
  assert (PA : exists pats, (match c_src C with Some src => if negb (c_r C) && negb (c_T C) then expand src else XOk [] | None => XOk [] end) = XOk pats /\ Forall (adm C pats) ts).
  { destruct ts as [|t ts]; [congruence|]. inversion Ha; subst. destruct (pats_adm C t H1) as (pats & E & At). exists pats. split; [exact E|].
    apply Forall_forall. intros t' Ht'. rewrite Forall_forall in Ha. destruct (pats_adm C t' (Ha t' Ht')) as (pats' & E' & At'). rewrite E in E'. inversion E'; subst. exact At'. }
  destruct PA as (pats & Ep & Had). unfold sink. rewrite E1, Ep.
  assert (Fs1 : fsof C w s1 = w) by (unfold fsof; rewrite W1; reflexivity).
  destruct (items Os C w pats sp ts (proj2 (Forall_forall _ _) (fun t _ => all_items Os C w HW pats sp t)) targ [] s1 Hnd Hs Had) as (s' & G & I' & K & F & A).
  { rewrite I1. now rewrite app_nil_r. } { apply K1. }
  { intros t Ht. rewrite Fs1, PL. intros ns k d m tm Hh. exact (Hf t Ht ns k d m tm Hh). }
  rewrite Fs1 in *. exists s'. splits.
  - change (go Os C targ true pats None s1 = Done s'). rewrite G. unfold go. cbn [loop]. rewrite I'. reflexivity.
  - destruct K as (K & _). rewrite K. apply K1.
  - destruct K as (_ & _ & K). rewrite K. destruct K1 as (_ & _ & K1). rewrite K1. cbn [start tr answers filter]. rewrite app_nil_r. rewrite <- repeat_app'. f_equal. lia.
  - intros t Ht. rewrite <- PL. exact (A t Ht).
  - intros q Hq. destruct (F q) as (B1 & B2).
    + intros t Ht. rewrite PL. destruct (Hq t Ht) as (Q1 & Q2). intros [U|U]; congruence.
    + split; [exact B2|]. intros Hab. apply B1. intros t Ht. rewrite PL. now apply Hab.
Qed.

(** A copy to a name: the target is not a directory, and what is sent gets the
    target's name. *)
Theorem C75_copy_as : forall Os C w targ sp t, works Os C w -> c_d C = false -> targ <> [] -> targ <> [47] ->
  (w targ = None \/ exists x, w targ = Some x /\ n_dir x = false) -> sendable t -> asked C t ->
  (forall ns k d m tm, has t ns k d m tm -> fits w (path targ ns) k) ->
  exists s, sink Os C targ (start (send sp t)) = Done s /\ errs s = 0 /\ answers (tr s) = repeat EOk (1 + replies sp t) /\
    let w' := replay (in_force C) w (tr s) in
    arrived C sp w w' targ t /\
    (forall q, q <> targ -> above targ q = false -> same_but_time (w' q) (w q) /\ (above q targ = false -> w' q = w q)).
Proof.
  intros Os C w targ sp t HW Hc Hne Hns Hx Hs Ha Hf. destruct (pats_adm C t Ha) as (pats & Ep & Had).
  unfold sink, enter. rewrite Hc. cbn [is_dir negb]. rewrite (stat_eq Os C w HW).
  assert (Kd : is_dir (kind_of (fsof C w (emit EOk (start (send sp t))) targ)) = false).
  { change (fsof C w (emit EOk (start (send sp t))) targ) with (w targ). destruct Hx as [-> | (x & -> & E)]; [reflexivity|]. cbn. now rewrite E. }
  rewrite Kd, Ep. set (s1 := emit (EStat targ) _).
  destruct (all_items Os C w HW pats sp t targ false [] s1 Hs Had) as (s' & G & I' & K & F & A); try assumption; try reflexivity.
  { cbn [inp start emit s1]. subst s1. cbn [inp start emit]. now rewrite app_nil_r. }
  cbn [path_of] in *. exists s'. splits.
  - change (go Os C targ false pats None s1 = Done s'). rewrite G. unfold go. cbn [loop]. rewrite I'. reflexivity.
  - destruct K as (K & _). rewrite K. reflexivity.
  - destruct K as (_ & _ & K). rewrite K. cbn [s1 start tr emit answers filter]. subst s1. change (answers _) with [EOk]. rewrite Nat.add_comm, repeat_app'. reflexivity.
  - exact A.
  - intros q Q1 Q2. destruct (F q) as (B1 & B2); [intros [U|U]; congruence|]. split; assumption.
Qed.

(** ** Such systems exist, and a copy with all of it *)
Definition an_os (C : conf) (w : fs) : os :=
  mkOs (fun t => match t with EStat p :: t' => kind_of (replay (in_force C) w t' p) | _ => None end) (fun _ => true) (fun _ => Some 4%positive).
Example C75_works : forall C w, works (an_os C w) C w.
Proof. intros C w. repeat split; try reflexivity. intros t H. discriminate H. Qed.
Definition client (r p : bool) (src : option (list Z)) : conf := mkConf p r false false 18 src (fun _ _ => false).
Definition home : fs := fun q => if beqb q (bs "/home") then Some (mkN true [] 493 None)
                                 else if beqb q (bs "/home/old") then Some (mkN false (bs "a longer text") 384 None) else None.
Definition cargo : list tree := [TFile (bs "old") 420 (5, 6) (bs "short"); TDir (bs "d") 365 (7, 8) [TFile (bs "x") 292 (1, 2) []; TDir (bs "e") 493 (3, 4) []]].
Example C75_copy_demo :
  let r := sink (an_os (client true true None) home) (client true true None) (bs "/home") (start (flat_map (send true) cargo)) in
  match r with
  | Done s => errs s = 0 /\
      let w' := replay 0 home (tr s) in
      w' (bs "/home/old") = Some (mkN false (bs "short") 420 (Some (mkT 5 0 6 0))) /\
      w' (bs "/home/d") = Some (mkN true [] 365 (Some (mkT 7 0 8 0))) /\
      w' (bs "/home/d/x") = Some (mkN false [] 292 (Some (mkT 1 0 2 0))) /\
      w' (bs "/home/d/e") = Some (mkN true [] 493 (Some (mkT 3 0 4 0)))
  | _ => False
  end.
Proof. vm_compute. repeat split. Qed.
Example C75_cargo_sendable : Forall sendable cargo /\ NoDup (map tname cargo).
Proof.
  assert (N : forall n, beqb n [] = false -> existsb (fun c => (c =? 47) || (c =? 0) || (c =? 10) || negb ((0 <=? c) && (c <? 256))) n = false -> beqb n (bs ".") = false -> beqb n (bs "..") = false -> zlen n <=? 1024 = true -> name_fits n).
  { intros n A B D E F. assert (B' : forall c, In c n -> c <> 47 /\ c <> 0 /\ c <> 10 /\ 0 <= c < 256).
    { intros c Hc. destruct ((c =? 47) || (c =? 0) || (c =? 10) || negb ((0 <=? c) && (c <? 256))) eqn:X; [|lia]. exfalso. rewrite <- not_true_iff_false in B. apply B, existsb_exists. exists c. auto. }
    unfold name_fits, plain_name. splits.
    - intros ->. discriminate A.
    - intros H. now apply B' in H.
    - intros H. now apply B' in H.
    - intros ->. discriminate D.
    - intros ->. discriminate E.
    - intros H. now apply B' in H.
    - apply Forall_forall. intros c Hc. apply B' in Hc. unfold is_byte. lia.
    - lia. }
  split.
  - unfold cargo. repeat (apply Forall_cons || apply Forall_nil); cbn [sendable]; unfold mode_fits, time_fits; cbn [fst snd]; splits; try lia; try exact I; try (apply N; reflexivity); try (vm_compute; discriminate).
    + cbn [map tname]. constructor; [intros [H|[]]; discriminate H|]. constructor; [intros []|constructor].
    + constructor.
  - cbn [map tname cargo]. constructor; [intros [H|[]]; discriminate H|]. constructor; [intros []|constructor].
Qed.

(** ** A peer that misbehaves *)
Definition sends (l : list (list Z)) : list Z := flat_map (fun x => x ++ [10]) l.
Definition stored (r : res) : list (list Z) := flat_map (fun e => match e with EOpen p _ => [p] | _ => [] end) (rev (trace r)).
Example C75_escape_demo : forall n, In n [bs "../x"; bs "/etc/x"; bs ".."; bs "."; bs ""; bs "a/b"] ->
  stored (sink (an_os (client true false None) home) (client true false None) (bs "/home") (start (sends [bs "C0644 0 " ++ n]))) = [].
Proof. intros n H. repeat (destruct H as [<-|H]; [vm_compute; reflexivity|]). destruct H. Qed.
Example C75_request_demo :
  let c := client false false (Some (request [Lit (bs "dir/f."); Alt [bs "c"; bs "h"]])) in
  let r x := stored (sink (an_os c home) c (bs "/home") (start (sends [x] ++ [0] ++ sends [bs "C0644 0 f.h"] ++ [0]))) in
  r (bs "C0644 0 f.c") = [bs "/home/f.c"; bs "/home/f.h"] /\ r (bs "C0644 0 .bashrc") = [].
Proof. vm_compute. split; reflexivity. Qed.

(** ** What does not hold *)
(** A request whose last alternative is empty: in a shell file{.bak,} is file.bak
    and file.  A peer that sends either of them is refused. *)
Theorem C75_braces_refuted :
  let c := client false false (Some (bs "file{.bak,}")) in
  forall n, In n [bs "file.bak"; bs "file"] ->
  exists s, sink (an_os c home) c (bs "/home") (start (sends [bs "C0644 0 " ++ n] ++ [0])) = Exit s /\ stored (Exit s) = [].
Proof. intros c n H. destruct H as [<-|[<-|[]]]; eexists; split; vm_compute; reflexivity. Qed.
(** Without -p the bits beyond the permissions are still those sent: a peer can
    make a file set-user-ID. *)
Theorem C75_plain_modes_refuted :
  let c := client false false None in
  exists s x, sink (an_os c home) c (bs "/home") (start (sends [bs "C4755 0 f"] ++ [0])) = Done s /\ errs s = 0 /\
    replay (in_force c) home (tr s) (bs "/home/f") = Some x /\ Z.land (n_mode x) 2048 = 2048.
Proof. intros c. eexists _, _. split; [vm_compute; reflexivity|]. repeat split. Qed.
(** Without -p times that were sent are set. *)
Theorem C75_times_refuted :
  let c := client false false None in
  exists s, sink (an_os c home) c (bs "/home") (start (sends [bs "T1 0 2 0"; bs "C0644 0 f"] ++ [0])) = Done s /\
    In (EUtimes (bs "/home/f") (mkT 1 0 2 0)) (tr s).
Proof. intros c. eexists. split; [vm_compute; reflexivity|]. cbn [tr]. now right; left. Qed.
(** Times that belong to a file that could not be made are given to the next. *)
Theorem C75_stale_times_refuted :
  let c := client false true None in
  let o := mkOs (os_stat (an_os c home)) (fun t => match t with EOpen p _ :: _ => negb (beqb p (bs "/home/a")) | _ => true end) (fun _ => Some 4%positive) in
  exists s, sink o c (bs "/home") (start (sends [bs "T1 0 2 0"; bs "C0644 0 a"; bs "C0644 0 b"] ++ [0])) = Done s /\
    In (EUtimes (bs "/home/b") (mkT 1 0 2 0)) (tr s).
Proof. intros c o. eexists. split; [vm_compute; reflexivity|]. cbn [tr]. now right; left. Qed.
(** A directory whose permissions and times cannot be set is not reported. *)
Theorem C75_directories_refuted :
  let c := client true true None in
  let o := mkOs (os_stat (an_os c home)) (fun t => match t with EChmod _ _ :: _ | EDtimes _ _ :: _ => false | _ => true end) (fun _ => Some 4%positive) in
  reports_success (sink o c (bs "/home") (start (sends [bs "T1 0 2 0"; bs "D0755 0 d"; bs "E"]))).
Proof. intros c o. eexists. split; [vm_compute; reflexivity|reflexivity]. Qed.
(** A copy that breaks off in a directory is taken for complete. *)
Theorem C75_cut_short_refuted :
  let c := client true true None in
  exists i rest, flat_map (send true) cargo = i ++ rest /\ rest <> [] /\
    reports_success (sink (an_os c home) c (bs "/home") (start i)).
Proof.
  intros c. exists (firstn 46 (flat_map (send true) cargo)), (skipn 46 (flat_map (send true) cargo)). split; [symmetry; apply firstn_skipn|]. split; [vm_compute; discriminate|].
  eexists. split; [vm_compute; reflexivity|reflexivity].
Qed.

Print Assumptions C75_confined.
Print Assumptions C75_requested.
Print Assumptions C75_modes.
Print Assumptions C75_reported.
Print Assumptions C75_total.
Print Assumptions C75_copy.
Print Assumptions C75_copy_as.
Print Assumptions C75_braces_refuted.
Print Assumptions C75_plain_modes_refuted.
Print Assumptions C75_times_refuted.
Print Assumptions C75_stale_times_refuted.
Print Assumptions C75_directories_refuted.
Print Assumptions C75_cut_short_refuted.
