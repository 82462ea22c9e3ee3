(** C46, C47 and C65-C69: the SFTP server. *)
From Coq Require Import String.
From Verif Require Import Base SshbufModel SshbufSpec WireSpec WireProof Dec Text MatchModel MatchSpec MatchProof.
From Verif Require Import SftpModel SftpSpec SftpProof SftpProof2 SftpProof3 SftpProof4 SftpProof5 SftpProof6 SftpProof7 SftpProof8 SftpProof9.

(** * C46: handles *)
(** Whatever the client sends, however it is cut into pieces, and whatever the
    operating system answers: every request is handled as [handled] says, with the
    live handles passed on from request to request, starting with none. *)
Theorem C46_handles : forall cf chunks env, Forall is_bytes chunks -> Forall res_ok env -> few_live (session cf chunks (start env)) ->
  chain handled empty (session cf chunks (start env)).
Proof. intros cf chunks env H1 H2 H3. eapply chain_impl; [|exact (session_whole cf chunks env H1 H2 H3)]. intros m T cs rs T' H. apply H. Qed.
Print Assumptions C46_handles.

(** And, without restrictions, a request naming a live handle of the right kind is
    not turned away. *)
Theorem C46_live : forall cf chunks env, Forall is_bytes chunks -> Forall res_ok env -> few_live (session cf chunks (start env)) -> unrestricted cf ->
  chain (fun m T calls replies T' => handled m T calls replies T' /\ served m T calls replies) empty (session cf chunks (start env)).
Proof. intros cf chunks env H1 H2 H3 Hu. eapply chain_impl; [|exact (session_whole cf chunks env H1 H2 H3)]. intros m T cs rs T' (A & B & _). split; [exact A|exact (B Hu)]. Qed.
Print Assumptions C46_live.

(** * C47: read-only mode *)
Theorem C47_read_only : forall cf chunks env, c_readonly cf = true ->
  forall c r, In (c, r) (s_calls (final (serve cf chunks (start env)))) -> ~ modifying c.
Proof.
  intros cf chunks env Hr c r Hin. destruct (serve_adds calm cf (fun t => dispatch_calm cf t Hr) chunks (start env)) as (cs & E & F). rewrite E in Hin. cbn [s_calls start app] in Hin.
  rewrite Forall_forall in F. exact (F _ Hin).
Qed.
Print Assumptions C47_read_only.

(** Requests that would change something are refused. *)
Theorem C47_refused : forall cf chunks env, c_readonly cf = true -> Forall is_bytes chunks -> Forall res_ok env ->
  Forall (fun e => forall n, request_named (fst (fst e)) n -> In n write_names ->
    snd (fst e) = [] /\ exists id t, m_id (fst (fst e)) = Some id /\ snd e = [RStatus id 3 t]) (session cf chunks (start env)).
Proof.
  intros cf chunks env Hr Hc He. apply session_forall; auto; [|constructor].
  intros st t tail st' cs rs Hb He' Hd Hg n Hn Hw. cbn [fst snd] in *. eapply dispatch_refused; eauto.
Qed.
Print Assumptions C47_refused.

(** * C65: request lists *)
Theorem C65_refused : forall cf chunks env, lists_ok cf -> Forall is_bytes chunks -> Forall res_ok env ->
  Forall (fun e => forall n, request_named (fst (fst e)) n -> refused_by_lists cf n ->
    snd (fst e) = [] /\ exists id t, m_id (fst (fst e)) = Some id /\ snd e = [RStatus id 3 t]) (session cf chunks (start env)).
Proof.
  intros cf chunks env Hr Hc He. apply session_forall; auto; [|constructor].
  intros st t tail st' cs rs Hb He' Hd Hg n Hn Hw. cbn [fst snd] in *. eapply dispatch_refused; eauto.
Qed.
Print Assumptions C65_refused.

Lemma named_more : forall t tail rest n, is_bytes tail -> request_named (t :: tail) n -> request_named (t :: tail ++ rest) n.
Proof.
  intros t tail rest n Hb [H|(Ht & e & He & Hin)]; [left; exact H|]. right. split; [assumption|]. exists e. split; [|assumption].
  unfold m_ext, m_args in *. change (zdrop 5 (t :: tail)) with (zdrop 4 tail) in He. change (zdrop 5 (t :: tail ++ rest)) with (zdrop 4 (tail ++ rest)).
  destruct (get_cstr (zdrop 4 tail)) as [[e' r]|] eqn:E; [|discriminate]. cbv beta iota in He. injection He as ->.
  assert (L : 4 <= zlen tail). { destruct (Z.le_gt_cases 4 (zlen tail)) as [L|L]; [assumption|]. rewrite zdrop_all in E by lia. discriminate. }
  rewrite zdrop_app_l by lia. destruct (local_cstr _ _ _ (is_bytes_zdrop _ _ Hb) E) as (p & Ep & Gp). rewrite Ep, <- app_assoc, Gp. reflexivity.
Qed.
(** A request the lists do not refuse does what it would do without any lists. *)
Theorem C65_allowed : forall cf st st' n, lists_ok cf -> is_bytes (s_in st) -> request_named (message (s_in st)) n -> ~ refused_by_lists cf n ->
  process (without_lists cf) st = Go true st' -> process cf st = Go true st'.
Proof.
  intros cf st st' n L Hb Hn Hr H. destruct (process_alone _ st st' Hb H) as (t & tail & rest & y & st1 & Hin & Hm & _ & _ & _). rewrite Hm in Hn.
  assert (Hbt : is_bytes tail). { rewrite Hin in Hb. apply is_bytes_app in Hb. destruct Hb as [_ Hb]. apply is_bytes_app in Hb. destruct Hb as [Hb _]. exact (Forall_inv_tail Hb). }
  unfold process in *. cbv zeta in *. destruct (zlen (s_in st) <? 5); [discriminate|]. destruct (_ >? MAX_MSG); [discriminate|]. destruct (zlen (s_in st) <? _ + 4); [discriminate|].
  assert (E : zdrop 4 (s_in st) = t :: tail ++ rest). { rewrite Hin. rewrite zdrop_app_exact; [reflexivity|now rewrite zlen_be_enc]. }
  rewrite E in *. destruct (dispatch (without_lists cf) t (set_in (tail ++ rest) st)) as [[] st2|] eqn:Ed; [|discriminate].
  rewrite (dispatch_allowed cf t (tail ++ rest) n st st2); auto. now apply named_more.
Qed.
Print Assumptions C65_allowed.

(** The extensions announced to the client are those that are permitted. *)
Theorem C65_announced : forall cf chunks env, lists_ok cf -> Forall is_bytes chunks -> Forall res_ok env ->
  Forall (fun e => forall exts, In (RVersion exts) (snd e) -> forall x n, In (x, n) ext_names ->
    (In x (map fst exts) <-> ~ (c_readonly cf = true /\ In n write_names) /\ ~ refused_by_lists cf n)) (session cf chunks (start env)).
Proof.
  intros cf chunks env L Hc He. apply session_forall; auto; [|constructor].
  intros st t tail st' cs rs Hb He' Hd Hg exts Hin x n Hx. cbn [snd] in Hin.
  assert (exts = filter (compose_extension cf) advertised) as ->.
  { pose proof (dispatch_answered cf t tail st st' cs rs Hb He' Hd Hg) as A. unfold answered in A. cbn [m_type] in A. destruct (t =? 1) eqn:Et.
    - assert (t = 1) as -> by lia. unfold dispatch in Hd. change (1 =? FXP_INIT) with true in Hd. cbv iota in Hd. apply bind_go in Hd. destruct Hd as (u & st1 & Hi & Hd). apply go_inj in Hd. subst st'.
      unfold process_init in Hi. apply bind_go in Hi. destruct Hi as (v & st2 & Hp & Hi). apply parse_go in Hp. destruct Hp as (l & _ & ->). apply bind_go in Hi. destruct Hi as (u2 & st3 & Hv & Hi). apply go_inj in Hv. subst st3.
      apply send_go in Hi. subst st1. destruct Hg as [_ Hg]. cbn [s_out set_init add_out set_version set_in] in Hg. apply app_inv_head in Hg. subst rs. destruct Hin as [Hin|[]]. congruence.
    - exfalso. destruct (_ || _); [|subst rs; destruct Hin]. destruct A as (r & -> & Hr). destruct Hin as [->|[]]. cbn [reply_id] in Hr.
      unfold dispatch in Hd. unfold FXP_INIT in Hd. rewrite Et in Hd. cbn [s_init set_in] in Hd. destruct (s_init st); [|discriminate]. cbn [negb] in Hd. apply bind_go in Hd. destruct Hd as (id & st1 & Hp & _).
      apply parse_go in Hp. destruct Hp as (args & Hp & _). cbn [s_in set_in] in Hp. destruct (m_args_cons t tail id args Hp) as [Mid _]. congruence. }
  destruct (ext_name_handler x n Hx) as (k & Ek & Hk & Hkn).
  assert (Hp : request_permitted cf k = false <-> banned cf n) by (rewrite <- Hkn; apply permitted_spec; [now apply in_or_app; right|assumption]).
  assert (Hadv : In x (map fst advertised)). { change (map fst advertised) with (map fst ext_names). apply (in_map fst) in Hx. exact Hx. }
  split.
  - intros K. apply in_map_iff in K. destruct K as ([x' v] & Ex & K). cbn [fst] in Ex. subst x'. apply filter_In in K. destruct K as [_ K]. unfold compose_extension in K. cbn [fst] in K. rewrite Ek in K.
    split; intros C; (assert (B : banned cf n) by (unfold banned; tauto)); apply Hp in B; congruence.
  - intros [K1 K2]. apply in_map_iff in Hadv. destruct Hadv as ([x' v] & Ex & K). cbn [fst] in Ex. subst x'. apply in_map_iff. exists (x, v). split; [reflexivity|]. apply filter_In. split; [assumption|].
    unfold compose_extension. cbn [fst]. rewrite Ek. destruct (request_permitted cf k); [reflexivity|]. exfalso. destruct (proj1 Hp eq_refl) as [C|C]; tauto.
Qed.
Print Assumptions C65_announced.

(** * C66: replies *)
Theorem C66_replies : forall cf chunks env, Forall is_bytes chunks -> Forall res_ok env ->
  Forall (fun e => answered (fst (fst e)) (snd e)) (session cf chunks (start env)).
Proof.
  intros cf chunks env Hc He. apply session_forall; auto; [|constructor].
  intros st t tail st' cs rs Hb He' Hd Hg. cbn [fst snd]. eapply dispatch_answered; eauto.
Qed.
Print Assumptions C66_replies.
(** What is sent is exactly the replies to the requests taken, in order. *)
Theorem C66_in_order : forall cf chunks env st, Forall is_bytes chunks -> Forall res_ok env -> serve cf chunks (start env) = Go tt st ->
  s_out st = concat (map snd (session cf chunks (start env))).
Proof. intros cf chunks env st Hc He Hs. apply (session_records cf chunks (start env) st); auto. constructor. Qed.
Print Assumptions C66_in_order.
(** Nothing is done before INIT. *)
Theorem C66_init_first : forall cf chunks env e l, Forall is_bytes chunks -> Forall res_ok env -> session cf chunks (start env) = e :: l -> m_type (fst (fst e)) = Some 1.
Proof.
  intros cf chunks env. assert (G : forall chunks st e l, s_init st = false -> is_bytes (s_in st) -> env_ok st -> Forall is_bytes chunks -> session cf chunks st = e :: l -> m_type (fst (fst e)) = Some 1).
  { clear. induction chunks as [|c chunks IH]; intros st e l Hi Hb He Hc H; [discriminate|]. inversion Hc as [|? ? Hc1 Hc2]; subst. rewrite session_cons in H. set (st0 := set_in (s_in st ++ c) st) in *.
    assert (Hb0 : is_bytes (s_in st0)) by (now apply is_bytes_app). destruct (process cf st0) as [[] st'|] eqn:E; [| |discriminate].
    - destruct (process_entry cf st0 st' Hb0 He E) as (_ & _ & t & tail & y & st1 & cs & rs & _ & _ & _ & Hd & _ & Ee & _). cbn [app] in H. injection H as H _. rewrite Ee in H. subst e. cbn [fst m_type].
      apply dispatch_init in Hd; [now subst|exact Hi].
    - apply process_false in E. subst st'. cbn [app] in H. eapply (IH st0); eauto. }
  intros e l Hc He H. apply (G chunks (start env) e l); [reflexivity|constructor|exact He|exact Hc|exact H].
Qed.
Print Assumptions C66_init_first.

(** * C67: reading and writing *)
Theorem C67_transfer : forall cf chunks env, Forall is_bytes chunks -> Forall res_ok env -> few_live (session cf chunks (start env)) ->
  chain (fun m T calls replies T' => handled m T calls replies T' /\ transferred m T calls replies) empty (session cf chunks (start env)).
Proof. intros cf chunks env H1 H2 H3. eapply chain_impl; [|exact (session_whole cf chunks env H1 H2 H3)]. intros m T cs rs T' (A & _ & B & _). now split. Qed.
Print Assumptions C67_transfer.

(** * C68: renaming *)
Theorem C68_rename : forall cf chunks env, Forall is_bytes chunks -> Forall res_ok env ->
  Forall (fun e => renamed (fst (fst e)) (snd (fst e)) (snd e)) (session cf chunks (start env)).
Proof.
  intros cf chunks env Hc He. apply session_forall; auto; [|constructor].
  intros st t tail st' cs rs Hb He' Hd Hg. cbn [fst snd]. eapply dispatch_renamed; eauto.
Qed.
Print Assumptions C68_rename.

(** * C69: copying *)
Theorem C69_copy : forall cf chunks env, Forall is_bytes chunks -> Forall res_ok env -> few_live (session cf chunks (start env)) ->
  chain (fun m T calls replies T' => handled m T calls replies T' /\ copied m T calls replies) empty (session cf chunks (start env)).
Proof. intros cf chunks env H1 H2 H3. eapply chain_impl; [|exact (session_whole cf chunks env H1 H2 H3)]. intros m T cs rs T' (A & _ & _ & B). now split. Qed.
Print Assumptions C69_copy.

(** * Examples and counterexamples *)
Definition msg (l : list Z) : list Z := enc_string l.
Definition m_version : list Z := msg ([1] ++ be_enc 4 3).
Definition m_open (id : Z) (name : string) (pflags : Z) : list Z := msg ([3] ++ be_enc 4 id ++ enc_string (bs name) ++ be_enc 4 pflags ++ be_enc 4 0).
Definition m_close (id : Z) (h : list Z) : list Z := msg ([4] ++ be_enc 4 id ++ enc_string h).
Definition m_read (id : Z) (h : list Z) (off len : Z) : list Z := msg ([5] ++ be_enc 4 id ++ enc_string h ++ be_enc 8 off ++ be_enc 4 len).
Definition m_write (id : Z) (h : list Z) (off : Z) (d : string) : list Z := msg ([6] ++ be_enc 4 id ++ enc_string h ++ be_enc 8 off ++ enc_string (bs d)).
Definition m_rename (id : Z) (a b : string) : list Z := msg ([18] ++ be_enc 4 id ++ enc_string (bs a) ++ enc_string (bs b)).
Definition m_copy (id : Z) (h : list Z) (off len : Z) (h2 : list Z) (off2 : Z) : list Z :=
  msg ([200] ++ be_enc 4 id ++ enc_string (bs "copy-data") ++ enc_string h ++ be_enc 8 off ++ be_enc 8 len ++ enc_string h2 ++ be_enc 8 off2).
Definition plain_config : config := mkConfig false None None (fun _ _ => []) (bs "/home").
Definition ok (n : Z) : sysres := mkRes n 0 [] stat0.
Definition ok_data (s : string) : sysres := mkRes (zlen (bs s)) 0 (bs s) stat0.
Definition err (e : Z) : sysres := mkRes (-1) e [] stat0.
Definition h0 := be_enc 4 0. Definition h1 := be_enc 4 1.

(** A session with fewer than 2^31 replies never has 2^31 live handles. *)
Lemma live_len : forall l, live l <= zlen (concat (map snd l)).
Proof.
  induction l as [|e l IH]; [reflexivity|]. cbn [live map concat]. rewrite zlen_app.
  assert (issues e <= zlen (snd e)). { unfold issues. generalize (snd e). induction l0 as [|x l0 IHl]; [reflexivity|]. cbn [filter]. destruct x; rewrite ?zlen_cons; lia. }
  assert (0 <= closes e). { unfold closes. destruct (m_type _); [|lia]. destruct (snd (fst e)); [lia|]. destruct (_ =? _); lia. } lia.
Qed.
Lemma few_live_short : forall l, zlen (concat (map snd l)) < 2147483648 -> few_live l.
Proof. intros l H p q ->. rewrite map_app, concat_app, zlen_app in H. pose proof (live_len p) as A. pose proof (zlen_nonneg _ (concat (map snd q))) as B. change entry with (list Z * list (call * option sysres) * list reply)%type in *. lia. Qed.

(** Open, write, read back, close, and use of the closed handle. *)
Definition ex_chunks : list (list Z) := [m_version; m_open 7 "/f" 27; m_write 8 h0 5 "abc"; m_read 9 h0 5 100; m_close 10 h0; m_read 11 h0 0 1].
Definition ex_env : list sysres := [ok 4; ok 5; ok 3; ok 5; ok_data "abc"; ok 0].
Example C46_example : Forall is_bytes ex_chunks /\ Forall res_ok ex_env /\ few_live (session plain_config ex_chunks (start ex_env)) /\ unrestricted plain_config /\
  map (fun e => (snd (fst e), snd e)) (skipn 1 (session plain_config ex_chunks (start ex_env))) =
  [ ([(COpen (bs "/f") 578 438, Some (ok 4))], [RHandle 7 h0]);
    ([(CLseek 4 5, Some (ok 5)); (CWrite 4 (bs "abc"), Some (ok 3))], [RStatus 8 0 (bs "Success")]);
    ([(CLseek 4 5, Some (ok 5)); (CRead 4 100, Some (ok_data "abc"))], [RData 9 (bs "abc")]);
    ([(CClose 4, Some (ok 0))], [RStatus 10 0 (bs "Success")]);
    ([], [RStatus 11 4 (bs "Failure")]) ].
Proof.
  split; [repeat constructor; lia|]. split; [unfold ex_env; repeat constructor; cbn; lia|]. split; [|split; [repeat split|vm_compute; reflexivity]].
  apply few_live_short. vm_compute. reflexivity.
Qed.

(** In read-only mode the same session writes nothing. *)
Definition ro_config : config := mkConfig true None None (fun _ _ => []) (bs "/home").
Example C47_example : map (fun e => (snd (fst e), snd e)) (skipn 1 (session ro_config [m_version; m_open 7 "/f" 27; m_open 8 "/f" 1; m_write 9 h0 5 "abc"; m_rename 10 "/f" "/g"] (start [ok 4]))) =
  [ ([], [RStatus 7 3 (bs "Permission denied")]);
    ([(COpen (bs "/f") 0 438, Some (ok 4))], [RHandle 8 h0]);
    ([], [RStatus 9 3 (bs "Permission denied")]);
    ([], [RStatus 10 3 (bs "Permission denied")]) ].
Proof. vm_compute. reflexivity. Qed.

(** Lists at work. *)
Definition list_config : config := mkConfig false (Some (bs "remove,read")) (Some (bs "open,close,read,write,copy-data")) (fun _ _ => []) (bs "/home").
Example C65_example : lists_ok list_config /\ refused_by_lists list_config (bs "read") /\ refused_by_lists list_config (bs "rename") /\ ~ refused_by_lists list_config (bs "write") /\
  map (fun e => (snd (fst e), snd e)) (session list_config [m_version; m_open 7 "/f" 27; m_write 8 h0 5 "abc"; m_read 9 h0 5 100; m_rename 10 "/f" "/g"] (start ex_env)) =
  [ ([], [RVersion [(bs "copy-data", bs "1")]]);
    ([(COpen (bs "/f") 578 438, Some (ok 4))], [RHandle 7 h0]);
    ([(CLseek 4 5, Some (ok 5)); (CWrite 4 (bs "abc"), Some (ok 3))], [RStatus 8 0 (bs "Success")]);
    ([], [RStatus 9 3 (bs "Permission denied")]);
    ([], [RStatus 10 3 (bs "Permission denied")]) ].
Proof.
  split; [|split; [|split; [|split]]].
  - split; intros l H; injection H as <-; (split; [apply Nat.leb_le; reflexivity|intros K; vm_compute in K; intuition discriminate]).
  - left. exists (bs "remove,read"). split; [reflexivity|vm_compute; tauto].
  - right. exists (bs "open,close,read,write,copy-data"). split; [reflexivity|intros K; vm_compute in K; intuition discriminate].
  - intros [(l & H & K)|(l & H & K)]; injection H as <-; [vm_compute in K; intuition discriminate|apply K; vm_compute; tauto].
  - vm_compute. reflexivity.
Qed.

(** A deny list is not read past its fortieth name, nor past an empty one: a name
    after that is still permitted. *)
Definition forty : list Z := join 44 (repeat (bs "x") 40 ++ [bs "remove"]).
Definition m_remove (id : Z) (a : string) : list Z := msg ([13] ++ be_enc 4 id ++ enc_string (bs a)).
Theorem C65_long_list_refuted : exists cf chunks env m calls replies, In (m, calls, replies) (session cf chunks (start env)) /\
  request_named m (bs "remove") /\ refused_by_lists cf (bs "remove") /\ (exists r, In (CUnlink (bs "/f"), r) calls).
Proof.
  set (cf := mkConfig false (Some forty) None (fun _ _ => []) []).
  exists cf, [m_version; m_remove 7 "/f"], [ok 0], (message (m_remove 7 "/f")), [(CUnlink (bs "/f"), Some (ok 0))], [RStatus 7 0 (bs "Success")].
  split; [apply (nth_error_In _ 1); vm_compute; reflexivity|]. split; [left; exists 13; split; [reflexivity|vm_compute; tauto]|].
  split; [left; exists forty; split; [reflexivity|vm_compute; tauto]|]. eexists. left. reflexivity.
Qed.
Print Assumptions C65_long_list_refuted.
Theorem C65_empty_entry_refuted : exists cf chunks env m calls replies, In (m, calls, replies) (session cf chunks (start env)) /\
  request_named m (bs "remove") /\ refused_by_lists cf (bs "remove") /\ (exists r, In (CUnlink (bs "/f"), r) calls).
Proof.
  set (cf := mkConfig false (Some (bs "read,,remove")) None (fun _ _ => []) []).
  exists cf, [m_version; m_remove 7 "/f"], [ok 0], (message (m_remove 7 "/f")), [(CUnlink (bs "/f"), Some (ok 0))], [RStatus 7 0 (bs "Success")].
  split; [apply (nth_error_In _ 1); vm_compute; reflexivity|]. split; [left; exists 13; split; [reflexivity|vm_compute; tauto]|].
  split; [left; exists (bs "read,,remove"); split; [reflexivity|vm_compute; tauto]|]. eexists. left. reflexivity.
Qed.
Print Assumptions C65_empty_entry_refuted.

(** A request of an unknown type is dropped without a reply. *)
Theorem C66_unknown_refuted : exists cf chunks env m calls replies, In (m, calls, replies) (session cf chunks (start env)) /\
  m_type m = Some 21 /\ m_id m = Some 7 /\ replies = [].
Proof.
  exists plain_config, [m_version; msg ([21] ++ be_enc 4 7)], [], (message (msg ([21] ++ be_enc 4 7))), [], [].
  split; [apply (nth_error_In _ 1); vm_compute; reflexivity|]. vm_compute. auto.
Qed.
Print Assumptions C66_unknown_refuted.

Example C68_example : map (fun e => (snd (fst e), snd e)) (skipn 1 (session plain_config [m_version; m_rename 7 "/f" "/g"; m_rename 8 "/d" "/e"]
    (start [mkRes 0 0 [] (mkStat 33188 0 0 0 0 0); ok 0; ok 0; mkRes 0 0 [] (mkStat 16877 0 0 0 0 0); err 2; ok 0]))) =
  [ ([(CLstat (bs "/f"), Some (mkRes 0 0 [] (mkStat 33188 0 0 0 0 0))); (CLink (bs "/f") (bs "/g"), Some (ok 0)); (CUnlink (bs "/f"), Some (ok 0))], [RStatus 7 0 (bs "Success")]);
    ([(CLstat (bs "/d"), Some (mkRes 0 0 [] (mkStat 16877 0 0 0 0 0))); (CStat (bs "/e"), Some (err 2)); (CRename (bs "/d") (bs "/e"), Some (ok 0))], [RStatus 8 0 (bs "Success")]) ].
Proof. vm_compute. reflexivity. Qed.

(** A copy of three bytes. *)
Definition copy_chunks : list (list Z) := [m_version; m_open 7 "/f" 1; m_open 8 "/g" 26; m_copy 9 h0 10 3 h1 20].
Example C69_example : map (fun e => (snd (fst e), snd e)) (skipn 3 (session plain_config copy_chunks (start [ok 4; ok 5; ok 10; ok 20; ok_data "abc"; ok 3]))) =
  [ ([(CLseek 4 10, Some (ok 10)); (CLseek 5 20, Some (ok 20)); (CReadFull 4 3, Some (ok_data "abc")); (CWriteFull 5 (bs "abc"), Some (ok 3))], [RStatus 9 0 (bs "Success")]) ].
Proof. vm_compute. reflexivity. Qed.
(** Success does not mean that the data was copied.  When the last chunk of a copy
    cannot be written, or the source is shorter than the amount asked for, the
    request is still answered with success. *)
Theorem C69_write_failure_refuted : exists chunks env m calls replies w, In (m, calls, replies) (session plain_config chunks (start env)) /\ Forall res_ok env /\
  copy_args m h0 10 3 h1 20 /\ In (CWriteFull 5 (bs "abc"), Some w) calls /\ rs_ret w = 0 /\ rs_errno w = 28 /\ replies = [RStatus 9 FX_OK (bs "Success")].
Proof.
  exists copy_chunks, [ok 4; ok 5; ok 10; ok 20; ok_data "abc"; mkRes 0 28 [] stat0], (message (m_copy 9 h0 10 3 h1 20)),
    [(CLseek 4 10, Some (ok 10)); (CLseek 5 20, Some (ok 20)); (CReadFull 4 3, Some (ok_data "abc")); (CWriteFull 5 (bs "abc"), Some (mkRes 0 28 [] stat0))],
    [RStatus 9 FX_OK (bs "Success")], (mkRes 0 28 [] stat0).
  split; [apply (nth_error_In _ 3); vm_compute; reflexivity|].
  split; [repeat constructor; cbn; lia|]. split; [exists []; vm_compute; intuition discriminate|]. split; [do 3 right; left; reflexivity|]. vm_compute. auto.
Qed.
Print Assumptions C69_write_failure_refuted.
Theorem C69_short_source_refuted : exists chunks env m calls replies, In (m, calls, replies) (session plain_config chunks (start env)) /\ Forall res_ok env /\
  copy_args m h0 10 3 h1 20 /\ (forall d r, In (CWriteFull 5 d, r) calls -> d = bs "a") /\ replies = [RStatus 9 FX_OK (bs "Success")].
Proof.
  exists copy_chunks, [ok 4; ok 5; ok 10; ok 20; ok_data "a"; ok 1], (message (m_copy 9 h0 10 3 h1 20)),
    [(CLseek 4 10, Some (ok 10)); (CLseek 5 20, Some (ok 20)); (CReadFull 4 3, Some (ok_data "a")); (CWriteFull 5 (bs "a"), Some (ok 1))], [RStatus 9 FX_OK (bs "Success")].
  split; [apply (nth_error_In _ 3); vm_compute; reflexivity|].
  split; [repeat constructor; cbn; lia|]. split; [exists []; vm_compute; intuition discriminate|]. split; [|reflexivity].
  intros d r H. destruct H as [H|[H|[H|[H|[]]]]]; try discriminate H. congruence.
Qed.
Print Assumptions C69_short_source_refuted.
