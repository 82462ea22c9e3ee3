(** C29 and C30: user authentication on the server. *)
From Coq Require Import String.
From Verif Require Import Base Text Auth2Model Auth2Spec Auth2Proof Auth2Proof2.

(** ** C29 *)
(** With AuthenticationMethods in force, the client is told of success exactly if
    the methods completed so far contain, in order, every step of one of the
    configured lists whose methods are all enabled.  Whatever else happens in
    between makes no difference. *)
Theorem C29_multi : forall c es tr fin, multi c -> Forall (free_of COMMA) (cf_devs c) -> run c init es = (tr, fin) ->
  (got_success tr <-> exists L, In L (cf_lists c) /\ usable c L /\ in_order (items L) (completed tr)).
Proof.
  intros c es tr fin M D H. pose proof (proj1 (multi_eff c) M) as N.
  rewrite (run_multi c es init [] N D (sinv_init c) eq_refl (or_introl (conj eq_refl eq_refl)) tr fin H). cbn [app].
  split; intros (L & A).
  - destruct A as [A B]. apply (cands_in c L M) in A. exists L. rewrite in_order_left. tauto.
  - destruct A as (A & B & C). exists L. split; [now apply (cands_in c L M)|now apply in_order_left].
Qed.
(** Without, exactly if one method is completed. *)
Theorem C29_single : forall c es tr fin, ~ multi c -> run c init es = (tr, fin) -> (got_success tr <-> completed tr <> []).
Proof.
  intros c es tr fin M H. apply (run_single c es init) with fin; auto; [|apply sinv_init].
  destruct (is_nil (eff_lists c)) eqn:E; [reflexivity|]. exfalso. now apply M, multi_eff.
Qed.
(** A method is completed only by a message whose check was passed, for an
    existing user, and if that user is root only as PermitRootLogin allows. *)
Theorem C29_checks : forall c es tr fin e o m sub, run c init es = (tr, fin) -> In (e, o) tr -> In (m, sub) (flat_map done_of o) ->
  passed c e m sub /\ exists root, first_request tr = Some (bs "ssh-connection", Some root) /\ (root = true -> root_ok c e m).
Proof. intros c es tr fin e o m sub H I J. destruct (run_init c es init tr fin (sinv_init c) eq_refl eq_refl H) as [A _]. exact (A e o m sub I J). Qed.

Definition yes (m : string) (u : string) : ev := EReq (bs u) (bs "ssh-connection") (bs m) (Some false) (mkAns true false false [] true false).
Definition no (m : string) (u : string) : ev := EReq (bs u) (bs "ssh-connection") (bs m) (Some false) (mkAns false false false [] true false).
Definition conf (lists : list (list Z)) (max : Z) : cfg := mkCfg max lists (fun _ => true) true false PermitNoPasswd [bs "pam"].
Definition replies (es : list ev) (c : cfg) : list out := flat_map snd (fst (run c init es)).
Example C29_ex_two_steps : replies [no "none" "al"; yes "password" "al"; yes "publickey" "al"; no "password" "al"; yes "publickey" "al"; yes "password" "al"] (conf [bs "publickey,password"] 6) =
  [OVerdict Failed (bs "none") None; OFailure [bs "publickey"] false;
   OVerdict Failed (bs "password") None; OFailure [bs "publickey"] false;
   OVerdict Partial (bs "publickey") None; OFailure [bs "password"] true;
   OVerdict Failed (bs "password") None; OFailure [bs "password"] false;
   OVerdict Failed (bs "publickey") None; OFailure [bs "password"] false;
   OVerdict Accepted (bs "password") None; OSuccess].
Proof. vm_compute. reflexivity. Qed.
Example C29_ex_device : replies [no "keyboard-interactive" "al"; EInfo RespMore true true false; EInfo RespOk true true false] (conf [bs "publickey,publickey"; bs "keyboard-interactive:pam"] 6) =
  [OInfoReq; OVerdict Postponed (bs "keyboard-interactive") None; OInfoReq; OVerdict Postponed (bs "keyboard-interactive") (Some (bs "pam"));
   OVerdict Accepted (bs "keyboard-interactive") (Some (bs "pam")); OSuccess].
Proof. vm_compute. reflexivity. Qed.
Example C29_ex_usable : usable (conf [bs "publickey,password"] 6) (bs "publickey,password") /\ multi (conf [bs "publickey,password"] 6) /\ Forall (free_of COMMA) [bs "pam"].
Proof.
  split; [apply valid_usable; vm_compute; reflexivity|]. split; [apply multi_eff; vm_compute; reflexivity|]. constructor; [|constructor]. vm_compute. intros H. decompose [or] H; try discriminate; auto.
Qed.

(** ** C30 *)
Lemma count_init : forall c es tr fin, run c init es = (tr, fin) ->
  counted_failures tr <= Z.max 1 (cf_max c) /\ (fin <> None -> counted_failures tr < Z.max 1 (cf_max c)) /\
  requests tr <= 1024 /\ ((length (cf_devs c) <= 1)%nat -> refusals tr <= counted_failures tr).
Proof.
  intros c es tr fin H. assert (X : xinv init true false) by (unfold xinv; cbn; splits; congruence). assert (M : s_failures init < Z.max 1 (cf_max c)) by (cbn [init s_failures]; lia).
  destruct (run_count c es init true false tr fin (sinv_init c) eq_refl X M H) as (A & B & C & _ & D). cbn [init s_failures s_attempt] in *. unfold counted_failures.
  splits; [lia|intros N; specialize (B N); lia|lia|exact D].
Qed.
(** No more than MaxAuthTries failures are counted, and the connection is up only
    as long as there are fewer. *)
Theorem C30_failures : forall c es tr fin, run c init es = (tr, fin) ->
  counted_failures tr <= Z.max 1 (cf_max c) /\ (fin <> None -> counted_failures tr < Z.max 1 (cf_max c)).
Proof.
  intros c es tr fin H. destruct (count_init c es tr fin H) as (A & B & _). auto.
Qed.
(** Every refused password, key, host key or keyboard-interactive answer counts:
    there are at most MaxAuthTries of them.  (No build of sshd has more than one
    keyboard-interactive device.) *)
Theorem C30_refusals : forall c es tr fin, (length (cf_devs c) <= 1)%nat -> run c init es = (tr, fin) ->
  refusals tr <= counted_failures tr /\ refusals tr <= Z.max 1 (cf_max c).
Proof.
  intros c es tr fin L H. destruct (count_init c es tr fin H) as (A & _ & _ & B). specialize (B L). lia.
Qed.
(** Requests that do not count (queries, partial successes) are limited too. *)
Theorem C30_requests : forall c es tr fin, run c init es = (tr, fin) -> requests tr <= 1024.
Proof.
  intros c es tr fin H. destruct (count_init c es tr fin H) as (_ & _ & A & _). exact A.
Qed.
(** One connection, one user and service: requests for another are not answered,
    and end the connection. *)
Theorem C30_user : forall c es tr fin, run c init es = (tr, fin) ->
  exists user service, forall u v m pw a o, In (EReq u v m pw a, o) tr -> o <> [] -> before_colon u = user /\ v = service.
Proof. intros c es tr fin H. exact (proj2 (run_init c es init tr fin (sinv_init c) eq_refl eq_refl H)). Qed.
Theorem C30_change_ends : forall c s u v m pw a, s_success s = false -> 0 < s_attempt s -> before_colon u <> s_user s \/ v <> s_service s ->
  step c s (EReq u v m pw a) = Dead [].
Proof.
  intros c s u v m pw a Hs A N. unfold step, request. rewrite Hs. destruct (1024 <=? s_attempt s); [reflexivity|]. destruct (Z.eqb_spec (s_attempt s) 0); [lia|].
  cbn [add_attempt s_user s_service]. destruct N as [N|N]; apply beqb_neq in N; rewrite N; cbn [negb orb]; [reflexivity|]. now rewrite orb_true_r.
Qed.
(** The usual first request for "none" is free. *)
Theorem C30_none_free : forall c u v pw a o s', step c init (EReq u v (bs "none") pw a) = Alive s' o -> s_failures s' = 0.
Proof.
  intros c u v pw a o s' H. pose proof (step_cases c init (EReq u v (bs "none") pw a) (sinv_init c) eq_refl) as S. rewrite H in S. inversion S as [? N| |s1 auth post force pm sub q P Q E]; subst; [exfalso; apply N; exact I|].
  destruct P as (P1 & _ & P3 & _ & _ & Pm & Ps & _ & P4 & _). change (s_failures init) with 0 in P1. change (s_attempt init + 1) with 1 in P4. subst pm sub.
  assert (FF : forall s2 p o1 s3 o3, s_failures s2 = 0 -> s_attempt s2 = 1 -> pre q (finish_fail c s2 p (bs "none") o1) = Alive s3 o3 -> s_failures s3 = 0).
  { intros s2 p o1 s3 o3 F A E0. destruct (finish_fail c s2 p (bs "none") o1) as [s4 o4|o4] eqn:E1; [|discriminate]. injection E0 as <- <-. apply finish_fail_alive in E1. destruct E1 as (_ & _ & _ & _ & _ & E1). rewrite E1, F, A. cbn [Z.ltb orb]. rewrite beqb_refl. cbn [negb orb]. rewrite andb_false_r. reflexivity. }
  assert (Bn : forall m, byname c (bs "none") = Some m -> mname m = bs "none") by (intros m B; destruct (byname_in _ _ _ B) as [_ [X|X]]; [congruence|destruct m; discriminate]).
  clear H S. revert E. destruct (finish_cases c s1 auth post force (bs "none") None) as [Ea|Ea Ep|r Ea Ep Er|m r Ea Ep V B R1 R2 Er|m Ea Ep V B R Nn|m ls Ea Ep V B R Nn U|m ls r Ea Ep V B R Nn U Er]; cbn [pre]; intros H; try discriminate.
  - injection H as <- <-. exact P1.
  - rewrite <- Er in H. eapply FF; eassumption.
  - rewrite <- Er, (Bn m B) in H. eapply FF; eassumption.
  - injection H as <- <-. exact P1.
  - injection H as <- <-. exact P1.
  - rewrite <- Er, (Bn m B) in H. eapply FF; [| |exact H]; [exact P1|exact P4].
Qed.
(** A failed GSSAPI integrity check need not count: the mark left by a request that
    failed for the server's own reasons excuses the answer to an earlier exchange. *)
Definition gss_ev (post srv : bool) : ev := EReq (bs "al") (bs "ssh-connection") (bs "gssapi-with-mic") (Some false) (mkAns false post srv [] true false).
Theorem C30_gss_refuted : exists c es s tr, run c init es = (tr, Some s) /\ cf_max c = 1 /\
  (2 <= length (filter (fun p => match fst p with EGssMic false _ => negb (is_nil (snd p)) | _ => false end) tr))%nat.
Proof.
  pose (c := conf [] 1).
  pose (es := [gss_ev true false; EGssTok (GTokComplete true) false; gss_ev false true; EGssMic false false;
               gss_ev true false; EGssTok (GTokComplete true) false; gss_ev false true; EGssMic false false]).
  destruct (run c init es) as [tr [s|]] eqn:E; [|exfalso; vm_compute in E; discriminate].
  exists c, es, s, tr. split; [exact E|split; [reflexivity|]].
  apply (f_equal (fun p => length (filter (fun p => match fst p with EGssMic false _ => negb (is_nil (snd p)) | _ => false end) (fst p)))) in E. cbn [fst] in E. rewrite <- E. vm_compute. lia.
Qed.
Example C30_ex : replies [no "none" "al"; no "password" "al:x"; no "publickey" "al"; no "password" "al"] (conf [] 3) =
  [OVerdict Failed (bs "none") None; OFailure [bs "publickey"; bs "gssapi-with-mic"; bs "password"; bs "keyboard-interactive"; bs "hostbased"] false;
   OVerdict Failed (bs "password") None; OFailure [bs "publickey"; bs "gssapi-with-mic"; bs "password"; bs "keyboard-interactive"; bs "hostbased"] false;
   OVerdict Failed (bs "publickey") None; OFailure [bs "publickey"; bs "gssapi-with-mic"; bs "password"; bs "keyboard-interactive"; bs "hostbased"] false;
   OVerdict Failed (bs "password") None].
Proof. vm_compute. reflexivity. Qed.
Example C30_ex_counts : let tr := fst (run (conf [] 3) init [no "none" "al"; no "password" "al"; no "publickey" "al"; no "password" "al"]) in
  counted_failures tr = 3 /\ refusals tr = 3 /\ snd (run (conf [] 3) init [no "none" "al"; no "password" "al"; no "publickey" "al"; no "password" "al"]) = None.
Proof. vm_compute. auto. Qed.

Print Assumptions C29_multi.
Print Assumptions C29_single.
Print Assumptions C29_checks.
Print Assumptions C30_failures.
Print Assumptions C30_refusals.
Print Assumptions C30_requests.
Print Assumptions C30_user.
Print Assumptions C30_change_ends.
Print Assumptions C30_none_free.
Print Assumptions C30_gss_refuted.
