(** C45: revoked host keys are never accepted. *)
From Coq Require Import String.
From Verif Require Import Base Text MatchModel MatchSpec Base64Model Base64Spec HostfileModel HostfileSpec HostfileProof HostfileProof2.

(** The verdict on a key, over any files of text lines: 'revoked' exactly if some
    line for the host revokes the key or its signer, wherever it stands; 'ok'
    exactly if none does and the key (or its signer) is listed under the
    matching marker; 'changed' exactly if neither holds and some other key is
    listed for the host; 'new' otherwise.  Reading the files has no undefined
    behaviour. *)
Theorem C45_verdict : forall P host fs k, hp_ok P -> good_files fs ->
  exists es, load_all P host (map tfile fs) = Some es /\
  let v := fst (check_key_in_hostkeys es k) in
  (v = HOST_REVOKED <-> revoked P fs host k) /\
  (v = HOST_OK <-> ~ revoked P fs host k /\ trusted P fs host k) /\
  (v = HOST_CHANGED <-> ~ revoked P fs host k /\ ~ trusted P fs host k /\ other_key P fs host k) /\
  (v = HOST_NEW <-> ~ revoked P fs host k /\ ~ trusted P fs host k /\ ~ other_key P fs host k).
Proof.
  intros P host fs k HP G. destruct (load_text P host fs HP G) as (es & E & I). exists es. split; [exact E|].
  assert (IK : forall m q, knows P fs host m q <-> exists e, In e es /\ he_marker e = m /\ he_key e = q).
  { intros m q. split.
    - intros (f & F1 & F2). exists (mkHE q m (note_of f)). splits; auto. apply I. exists f. auto.
    - intros (e & E1 & <- & <-). apply I in E1. destruct E1 as (f & F1 & _ & F2). exists f. auto. }
  assert (R : key_revoked es k = true <-> revoked P fs host k).
  { rewrite revoked_iff. unfold revoked. split.
    - intros (e & E1 & E2 & E3). exists (he_key e). split; [|exact E3]. apply IK. eauto.
    - intros (r & R1 & R2). apply IK in R1. destruct R1 as (e & E1 & E2 & <-). eauto. }
  assert (T : (exists e, In e es /\ trusts k e) <-> trusted P fs host k).
  { unfold trusted, trusts. split.
    - intros (e & E1 & [(C & E2 & E3)|(E2 & E3)]).
      + left. split; [exact C|]. exists (he_key e). split; [|exact E3]. apply IK. eauto.
      + right. exists (he_key e). split; [|exact E3]. apply IK. eauto.
    - intros [(C & e & E1 & E2)|(ca & E1 & E2)]; apply IK in E1; destruct E1 as (x & X1 & X2 & <-); eauto 10. }
  assert (O : (hk_cert k = None /\ exists e, In e es /\ he_marker e = MRK_NONE) <-> other_key P fs host k).
  { unfold other_key. split; intros (C & e & X); (split; [exact C|]).
    - exists (he_key e). apply IK. destruct X. eauto.
    - apply IK in X. destruct X as (x & X1 & X2 & _). eauto. }
  cbv zeta. rewrite <- R, <- T, <- O. unfold check_key_in_hostkeys, sshkey_is_cert.
  destruct (hk_cert k) as [cb|] eqn:C; cbn [is_some].
  - destruct (find_key_cert es k HOST_NEW None ltac:(congruence)) as [[-> N]|(e & E1 & E2 & ->)]; destruct (key_revoked es k); cbn [fst]; splits; split; try discriminate; try (intros [X _]; congruence); try reflexivity; intros;
      repeat match goal with H : _ /\ _ |- _ => destruct H | |- _ /\ _ => split end; try discriminate; try congruence; try (exfalso; eauto; fail).
    + destruct H0 as (e & X1 & X2). destruct (N e X1 X2).
    + intros (e & X1 & X2). exact (N e X1 X2).
    + intros (X & _). discriminate.
    + exists e. auto.
  - destruct (find_key_plain es k HOST_NEW None C) as [[-> N]|[(e & E1 & E2 & ->)|(NT & e & E1 & E2 & ->)]]; destruct (key_revoked es k); cbn [fst]; splits; split; try discriminate; try (intros [X _]; congruence); try reflexivity; intros;
      repeat match goal with H : _ /\ _ |- _ => destruct H | |- _ /\ _ => split end; try discriminate; try congruence; try (exfalso; eauto; fail).
    + destruct H0 as (e & X1 & [(_ & X2 & _)|(_ & (b & X2))]); [destruct (N e X1 X2)|congruence].
    + destruct H2 as (e & X1 & X2). destruct (N e X1 X2).
    + intros (e & X1 & [(_ & X2 & _)|(_ & (b & X2))]); [exact (N e X1 X2)|congruence].
    + intros (_ & e & X1 & X2). exact (N e X1 X2).
    + exists e. auto.
    + destruct H0 as (x & X1 & X2). destruct (NT x X1 X2).
    + intros (x & X1 & X2). exact (NT x X1 X2).
    + exists e. auto.
Qed.
Print Assumptions C45_verdict.

(** The entry returned with a verdict is one that a file contains: with 'ok' an
    entry that makes the key trusted, with 'changed' an unmarked key. *)
Theorem C45_found : forall P host fs k es v e, hp_ok P -> good_files fs ->
  load_all P host (map tfile fs) = Some es -> check_key_in_hostkeys es k = (v, Some e) ->
  (exists f, In f fs /\ he_note e = note_of f /\ says P (lines_of f) host (he_marker e) (he_key e)) /\
  (v = HOST_OK /\ ((hk_cert k = None /\ he_marker e = MRK_NONE /\ same_key k (he_key e)) \/ (he_marker e = MRK_CA /\ signed_by k (he_key e)))
   \/ v = HOST_CHANGED /\ hk_cert k = None /\ he_marker e = MRK_NONE).
Proof.
  intros P host fs k es v e HP G L H. destruct (load_text P host fs HP G) as (es' & E & I). rewrite L in E. injection E as <-.
  unfold check_key_in_hostkeys, sshkey_is_cert in H. destruct (hk_cert k) as [cb|] eqn:C; cbn [is_some] in H.
  - destruct (find_key_cert es k HOST_NEW None ltac:(congruence)) as [[X N]|(e' & E1 & E2 & X)]; rewrite X in H; destruct (key_revoked es k); try discriminate.
    injection H as <- <-. split; [apply I; exact E1|]. left. split; [reflexivity|]. unfold trusts in E2. rewrite C in E2. exact E2.
  - destruct (find_key_plain es k HOST_NEW None C) as [[X N]|[(e' & E1 & E2 & X)|(NT & e' & E1 & E2 & X)]]; rewrite X in H; destruct (key_revoked es k); try discriminate.
    + injection H as <- <-. split; [apply I; exact E1|]. left. split; [reflexivity|]. unfold trusts in E2. rewrite C in E2. exact E2.
    + injection H as <- <-. split; [apply I; exact E1|]. right. auto.
Qed.
Print Assumptions C45_found.

(** Looking a key up by its type gives only an unmarked key of that type (and
    curve) that no entry revokes, and gives one if there is any and none of that
    type is revoked. *)
Theorem C45_by_type : forall P host fs es kt nid, hp_ok P -> good_files fs ->
  load_all P host (map tfile fs) = Some es ->
  let fine k := hk_type k = kt /\ (nid = -1 \/ (kt <> 2 /\ kt <> 6) \/ hk_nid k = nid) in
  (forall e, lookup_by_type es kt nid = Some e ->
     knows P fs host MRK_NONE (he_key e) /\ fine (he_key e) /\ ~ revoked P fs host (he_key e)) /\
  (forall k, knows P fs host MRK_NONE k -> fine k ->
     (forall k', knows P fs host MRK_NONE k' -> fine k' -> ~ revoked P fs host k') ->
     exists e, lookup_by_type es kt nid = Some e).
Proof.
  intros P host fs es kt nid HP G L fine. destruct (load_text P host fs HP G) as (es' & E & I). rewrite L in E. injection E as <-.
  assert (IK : forall m q, knows P fs host m q <-> exists e, In e es /\ he_marker e = m /\ he_key e = q).
  { intros m q. split.
    - intros (f & F1 & F2). exists (mkHE q m (note_of f)). splits; auto. apply I. exists f. auto.
    - intros (e & E1 & <- & <-). apply I in E1. destruct E1 as (f & F1 & _ & F2). exists f. auto. }
  assert (R : forall k, key_revoked es k = true <-> revoked P fs host k).
  { intros k. rewrite revoked_iff. unfold revoked. split.
    - intros (e & E1 & E2 & E3). exists (he_key e). split; [|exact E3]. apply IK. eauto.
    - intros (r & R1 & R2). apply IK in R1. destruct R1 as (e & E1 & E2 & <-). eauto. }
  assert (FT : forall l, match find_type l kt nid with
    | Some e => In e l /\ he_marker e = MRK_NONE /\ fine (he_key e)
    | None => forall e, In e l -> he_marker e = MRK_NONE -> ~ fine (he_key e) end).
  { induction l as [|e l IH]; [intros e []|]. cbn [find_type].
    assert (SK : (he_marker e = MRK_NONE -> ~ fine (he_key e)) -> match find_type l kt nid with
      | Some e0 => In e0 (e :: l) /\ he_marker e0 = MRK_NONE /\ fine (he_key e0)
      | None => forall e0, In e0 (e :: l) -> he_marker e0 = MRK_NONE -> ~ fine (he_key e0) end).
    { intros N. destruct (find_type l kt nid) as [x|]; [destruct IH as (A & B & D); splits; auto; right; exact A|]. intros x [<- |X]; auto. }
    destruct (marker_eqb (he_marker e) MRK_NONE) eqn:M; cbn [negb].
    2:{ apply SK. intros X. apply marker_eqb_eq in X. congruence. }
    destruct (hk_type (he_key e) =? kt) eqn:T; cbn [negb]. 2:{ apply SK. intros _ (X & _). lia. }
    destruct (negb (nid =? -1) && plain_ecdsa kt && negb (hk_nid (he_key e) =? nid)) eqn:D.
    { apply SK. intros _ (_ & X). unfold plain_ecdsa, KEY_ECDSA, KEY_ECDSA_CERT in D. lia. }
    splits; [left; reflexivity|apply marker_eqb_eq; exact M|]. unfold fine. unfold plain_ecdsa, KEY_ECDSA, KEY_ECDSA_CERT in D. split; [lia|]. lia. }
  specialize (FT es). unfold lookup_by_type. destruct (find_type es kt nid) as [e|].
  - destruct FT as (A & B & D). destruct (key_revoked es (he_key e)) eqn:K.
    + split; [discriminate|]. intros k K1 K2 K3. exfalso. apply (K3 (he_key e)); [apply IK; eauto|exact D|]. apply R. exact K.
    + split; [|eauto]. intros e' [= <-]. splits; [apply IK; eauto|exact D|]. rewrite <- R. congruence.
  - split; [discriminate|]. intros k K1 K2 _. exfalso. apply IK in K1. destruct K1 as (e & E1 & E2 & <-). exact (FT e E1 E2 K2).
Qed.
Print Assumptions C45_by_type.

(** ** Cases *)
Definition ex_key (n : Z) : hkey := mkHK 1 0 (bs "t") [n] [n] None.
Definition ex_P : hprims := mkHP (fun n => if beqb n (bs "t") then Some (1, 0) else None)
  (fun b => match b with [n] => Some (ex_key n) | _ => None end) (fun s h => repeat (zlen h mod 256) 20).
Lemma ex_P_ok : hp_ok ex_P.
Proof.
  intros s h. split; [|reflexivity]. apply Forall_forall. intros x X. apply repeat_spec in X. subst x. pose proof (Z.mod_pos_bound (zlen h) 256). unfold is_byte. lia.
Qed.
Definition ex_lines : list (list Z) :=
  [bs "# comment"; bs "*.org,!b.org t QQ== c"; bs "a.org t Qg=="; bs "@revoked a.org t QQ=="; bs "@cert-authority a.org t Qw=="; bs "@bogus a.org t RA=="].
Example C45_ex : hp_ok ex_P /\ good_files [(ex_lines, 0, [])] /\
  exists es, load_all ex_P (bs "a.org") [tfile (ex_lines, 0, [])] = Some es /\ zlen es = 4 /\
  fst (check_key_in_hostkeys es (ex_key 65)) = HOST_REVOKED /\ fst (check_key_in_hostkeys es (ex_key 66)) = HOST_OK /\
  fst (check_key_in_hostkeys es (ex_key 67)) = HOST_CHANGED /\
  fst (check_key_in_hostkeys es (mkHK 5 0 (bs "tc") [1] [1] (Some ([7], [67])))) = HOST_OK /\
  fst (check_key_in_hostkeys es (mkHK 5 0 (bs "tc") [1] [1] (Some ([7], [65])))) = HOST_REVOKED /\
  fst (check_key_in_hostkeys es (mkHK 5 0 (bs "tc") [66] [66] (Some ([7], [66])))) = HOST_NEW.
Proof.
  split; [exact ex_P_ok|]. split.
  - constructor; [|constructor]. split.
    + unfold lines_of, ex_lines. cbn [fst]. repeat (constructor; [unfold text_line; splits; [vm_compute; intuition discriminate|vm_compute; intuition discriminate|reflexivity]|]). constructor.
    + intros l m hosts rest I E. apply parts_complete in E. unfold lines_of, ex_lines in I. cbn [fst In] in I.
      destruct I as [<- |[<- |[<- |[<- |[<- |[<- |[]]]]]]]; vm_compute in E; try discriminate E; injection E as <- <- <-; vm_compute; repeat constructor.
  - eexists. vm_compute. auto 20.
Qed.

(** ** Where the English claim fails *)
(** A tab after "@revoked" is not taken as the end of the marker when a space
    stands somewhere later on the line: the whole line is then ignored, and the
    key it means to revoke is accepted. *)
Theorem C45_tab_marker_refuted : exists P f host k es,
  hp_ok P /\ f = text [bs "h t QQ=="; bs "@revoked" ++ [9] ++ bs "h t QQ=="] /\
  key_text P (bs "t QQ==") k /\
  load_all P host [(f, 0, [])] = Some es /\ host = bs "h" /\ fst (check_key_in_hostkeys es k) = HOST_OK.
Proof.
  exists ex_P, (text [bs "h t QQ=="; bs "@revoked" ++ [9] ++ bs "h t QQ=="]), (bs "h"), (ex_key 65), [mkHE (ex_key 65) MRK_NONE 0].
  splits; try reflexivity; [exact ex_P_ok|]. apply (proj1 (read_key ex_P (bs "t QQ==") (ex_key 65) ltac:(vm_compute; reflexivity))). vm_compute. reflexivity.
Qed.
Print Assumptions C45_tab_marker_refuted.

(** A last line that is only a host name and has no newline: the code steps over
    the terminator and goes on reading what an earlier line left in the buffer,
    so that the key of another host is accepted for this one, although no line
    says so. *)
Theorem C45_stale_line_refuted : exists P f host k es,
  hp_ok P /\ f = bs "a t QQ==" ++ [10] ++ bs "b" /\ host = bs "b" /\
  (forall m k, ~ says P [bs "a t QQ=="; bs "b"] host m k) /\
  load_all P host [(f, 0, [])] = Some es /\ fst (check_key_in_hostkeys es k) = HOST_OK.
Proof.
  exists ex_P, (bs "a t QQ==" ++ [10] ++ bs "b"), (bs "b"), (ex_key 65), [mkHE (ex_key 65) MRK_NONE 0].
  splits; try reflexivity; [exact ex_P_ok|]. intros m k (l & hosts & rest & [<- |[<- |[]]] & E & L & _); apply parts_complete in E; vm_compute in E; [|discriminate].
  injection E as <- <- <-. apply (names_match ex_P (bs "b")) in L; [vm_compute in L; discriminate|exact ex_P_ok| |reflexivity].
  vm_compute. repeat constructor.
Qed.
Print Assumptions C45_stale_line_refuted.
(** And where the buffer ends there, the read is out of bounds. *)
Theorem C45_unterminated_read_refuted : exists P f host, load_all P host [(f, 0, [])] = None.
Proof. exists ex_P, (bs "b"), (bs "b"). vm_compute. reflexivity. Qed.
Print Assumptions C45_unterminated_read_refuted.
