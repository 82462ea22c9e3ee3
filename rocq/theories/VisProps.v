(** C72: what reaches the log, whatever the bytes of a message.
    [isgraph] and [iscntrl] are the character classes of the locale. *)
From Coq Require Import String.
From Verif Require Import Base Bits VisModel VisSpec VisProof.
Local Open Scope Z_scope.

(** The message as composed: the level word and the suffix added, cut to the
    buffer at each step. *)
Definition cut (s : list Z) : list Z := ztake 1023 s.
Definition word_of (level : log_level) : option (list Z) :=
  match level with
  | FATAL => Some (bs "fatal")
  | ERROR => Some (bs "error")
  | INFO | VERBOSE => None
  | DEBUG1 => Some (bs "debug1")
  | DEBUG2 => Some (bs "debug2")
  | DEBUG3 => Some (bs "debug3")
  | QUIET | NOT_SET => Some (bs "internal error")
  end.
Definition with_word (w : option (list Z)) (text : list Z) : list Z :=
  match w with Some w => w ++ bs ": " ++ text | None => text end.
Definition with_suffix (text : list Z) (s : option (list Z)) : list Z :=
  match s with Some s => cut (text ++ bs ": " ++ s) | None => text end.
Definition message (level : log_level) (text : list Z) (suffix : option (list Z)) : list Z :=
  with_suffix (cut (with_word (word_of level) text)) suffix.

Lemma c_string_take : forall n s, c_string s -> c_string (ztake n s).
Proof.
  intros n s H. unfold c_string in *. rewrite Forall_forall in *. intros b Hb. apply H. unfold ztake in Hb.
  rewrite <- (firstn_skipn (Z.to_nat n) s). apply in_or_app. now left.
Qed.
Lemma c_string_app : forall a b, c_string a -> c_string b -> c_string (a ++ b).
Proof. intros. apply Forall_app. now split. Qed.
Ltac cs := unfold c_string; cbn; repeat constructor; lia.
Lemma message_c : forall level text suffix, c_string text -> (forall s, suffix = Some s -> c_string s) -> c_string (message level text suffix).
Proof.
  intros level text suffix Ht Hs. unfold message, with_suffix.
  assert (Hm : c_string (cut (with_word (word_of level) text))).
  { apply c_string_take. unfold with_word. destruct (word_of level) as [w|] eqn:W; [|exact Ht].
    apply c_string_app; [|apply c_string_app; [cs|exact Ht]]. destruct level; cbn [word_of] in W; try discriminate; injection W as <-; cs. }
  destruct suffix as [s|]; [|exact Hm]. apply c_string_take. apply c_string_app; [exact Hm|]. apply c_string_app; [cs|now apply Hs].
Qed.

Section P.
Variable isgraph iscntrl : Z -> bool.
Hypothesis Cls : ascii_classes isgraph iscntrl.
Notation do_log := (do_log isgraph iscntrl).

Lemma syslog_shape : forall level set force prog text suffix line,
  do_log level set force false 0 prog text suffix = Syslog line ->
  exists full m1 m2, line = ztake 500 full /\ message level text suffix = m1 ++ m2 /\
    full = concat (map (fun c => vis isgraph iscntrl c LOG_SYSLOG_VIS) m1) /\ zlen full < 1024 /\
    (forall c r, m2 = c :: r -> 1024 <= zlen full + 4).
Proof.
  intros level set force prog text suffix line E. unfold VisModel.do_log in E. destruct (negb force && _); [discriminate|].
  change (negb (0 =? 0)) with false in E. cbv zeta iota in E.
  set (mb := match suffix with Some s => _ | None => _ end) in E.
  assert (Em : mb = message level text suffix).
  { unfold mb, message, with_suffix, cut, with_word. change (MSGBUFSIZ - 1) with 1023.
    destruct level, suffix; reflexivity. }
  rewrite Em in E. clear Em mb.
  destruct (strnvis_ok isgraph iscntrl (message level text suffix) MSGBUFSIZ LOG_SYSLOG_VIS) as (m1 & m2 & M & F & L & _ & T & _); [unfold MSGBUFSIZ; lia|].
  rewrite F in E. change (MSGBUFSIZ >? 0) with true in E. cbv iota in E. injection E as <-.
  exists (concat (map (fun c => vis isgraph iscntrl c LOG_SYSLOG_VIS) m1)), m1, m2.
  split; [reflexivity|]. split; [exact M|]. split; [reflexivity|]. unfold MSGBUFSIZ in *. split; [apply L; lia|].
  intros c r Q. specialize (T c r Q). rewrite map_app, concat_app, zlen_app in T. cbn [map concat] in T. rewrite app_nil_r in T.
  pose proof (vis_max isgraph iscntrl c LOG_SYSLOG_VIS). lia.
Qed.

(** A line for syslog consists of printable ASCII characters: no byte of a
    message can end the line, start another or reach the terminal of whoever
    reads the log as a control sequence. *)
Theorem C72_syslog : forall level set force prog text suffix line,
  c_string text -> (forall s, suffix = Some s -> c_string s) ->
  do_log level set force false 0 prog text suffix = Syslog line ->
  Forall printable line /\ zlen line <= 500.
Proof.
  intros level set force prog text suffix line Ht Hs E.
  destruct (syslog_shape _ _ _ _ _ _ _ E) as (full & m1 & m2 & -> & M & -> & _ & _).
  assert (Hm : c_string m1). { pose proof (message_c level text suffix Ht Hs) as C. rewrite M in C. now apply Forall_app in C as [C _]. }
  destruct (syslog_all isgraph iscntrl Cls m1 Hm) as [P _]. split.
  - unfold ztake. rewrite Forall_forall in *. intros b Hb. apply P. rewrite <- (firstn_skipn (Z.to_nat 500)). apply in_or_app. now left.
  - unfold ztake, zlen. rewrite firstn_length. lia.
Qed.

(** It can be read back: a line of fewer than 500 characters stands for a
    beginning of the message, and for the whole message whenever that fits. *)
Theorem C72_reads : forall level set force prog text suffix line,
  c_string text -> (forall s, suffix = Some s -> c_string s) ->
  do_log level set force false 0 prog text suffix = Syslog line ->
  exists full m1 m2, line = ztake 500 full /\ message level text suffix = m1 ++ m2 /\ reads full m1 /\
    (m2 <> [] -> 1020 <= zlen full < 1024).
Proof.
  intros level set force prog text suffix line Ht Hs E.
  destruct (syslog_shape _ _ _ _ _ _ _ E) as (full & m1 & m2 & -> & M & -> & L & T).
  assert (Hm : c_string m1). { pose proof (message_c level text suffix Ht Hs) as C. rewrite M in C. now apply Forall_app in C as [C _]. }
  destruct (syslog_all isgraph iscntrl Cls m1 Hm) as [_ R].
  exists (concat (map (fun c => vis isgraph iscntrl c LOG_SYSLOG_VIS) m1)), m1, m2. split; [reflexivity|]. split; [exact M|]. split; [exact R|].
  intros N. destruct m2 as [|c r]; [now elim N|]. specialize (T c r eq_refl). lia.
Qed.
Theorem C72_line_exact : forall level set force prog text suffix line,
  c_string text -> (forall s, suffix = Some s -> c_string s) ->
  do_log level set force false 0 prog text suffix = Syslog line -> zlen line < 500 ->
  reads line (message level text suffix).
Proof.
  intros level set force prog text suffix line Ht Hs E L.
  destruct (C72_reads level set force prog text suffix line Ht Hs E) as (full & m1 & m2 & -> & M & R & T).
  assert (Lf : zlen full < 500).
  { destruct (Z.lt_ge_cases (zlen full) 500); [assumption|]. rewrite zlen_ztake in L by lia. lia. }
  destruct m2 as [|c r]; [|specialize (T ltac:(discriminate)); lia].
  rewrite app_nil_r in M. rewrite M. rewrite ztake_all by lia. exact R.
Qed.

(** A log handler (as in the unprivileged child of the server) receives text
    of the same kind, without the severity, which it is given separately. *)
Theorem C72_handler : forall level set force prog text suffix line,
  c_string text -> (forall s, suffix = Some s -> c_string s) ->
  do_log level set force true 0 prog text suffix = Handler line ->
  Forall printable line /\ zlen line < 1024 /\
  exists m1 m2, with_suffix (cut text) suffix = m1 ++ m2 /\ reads line m1 /\ (m2 <> [] -> 1020 <= zlen line).
Proof.
  intros level set force prog text suffix line Ht Hs E. unfold VisModel.do_log in E. destruct (negb force && _); [discriminate|].
  change (negb (0 =? 0)) with false in E. cbv zeta iota in E.
  set (mb := match suffix with Some s => _ | None => _ end) in E.
  assert (Em : mb = with_suffix (cut text) suffix).
  { unfold mb, with_suffix, cut. change (MSGBUFSIZ - 1) with 1023. destruct level, suffix; reflexivity. }
  rewrite Em in E. clear Em mb.
  assert (Hc : c_string (with_suffix (cut text) suffix)).
  { unfold with_suffix. assert (c_string (cut text)) by now apply c_string_take. destruct suffix as [s|]; [|assumption]. apply c_string_take.
    apply c_string_app; [assumption|]. apply c_string_app; [cs|now apply Hs]. }
  destruct (strnvis_ok isgraph iscntrl (with_suffix (cut text) suffix) MSGBUFSIZ LOG_SYSLOG_VIS) as (m1 & m2 & M & F & L & _ & T & _); [unfold MSGBUFSIZ; lia|].
  rewrite F in E. change (MSGBUFSIZ >? 0) with true in E. cbv iota in E. injection E as <-. rewrite M in Hc. apply Forall_app in Hc as [Hc _].
  destruct (syslog_all isgraph iscntrl Cls m1 Hc) as [P R]. split; [exact P|]. unfold MSGBUFSIZ in *. split; [apply L; lia|].
  exists m1, m2. split; [exact M|]. split; [exact R|]. intros N. destruct m2 as [|c r]; [now elim N|].
  specialize (T c r eq_refl). rewrite map_app, concat_app, zlen_app in T. cbn [map concat] in T. rewrite app_nil_r in T.
  pose proof (vis_max isgraph iscntrl c LOG_SYSLOG_VIS). lia.
Qed.

(** One text stands for one message only, so no message can be made to look
    like another. *)
Theorem C72_unambiguous : forall line m m', reads line m -> reads line m' -> m = m'.
Proof. exact reads_fun. Qed.

(** A short message appears in full. *)
Theorem C72_short : forall level set force prog text suffix,
  c_string text -> (forall s, suffix = Some s -> c_string s) -> force = true \/ level_num level <= level_num set ->
  4 * zlen (message level text suffix) < 500 ->
  exists line, do_log level set force false 0 prog text suffix = Syslog line /\ reads line (message level text suffix).
Proof.
  intros level set force prog text suffix Ht Hs On Len.
  destruct (do_log level set force false 0 prog text suffix) as [|l|l|line] eqn:E.
  1-3: exfalso; unfold VisModel.do_log in E; destruct (negb force && (level_num level >? level_num set)) eqn:Q;
       [destruct On as [-> | On]; [discriminate|lia]|]; change (negb (0 =? 0)) with false in E; cbv zeta iota in E;
       match type of E with context [strnvis ?a ?b ?c ?d ?f] =>
         destruct (strnvis_ok a b c d f) as (m1 & m2 & _ & F & _); [unfold MSGBUFSIZ; lia|]; rewrite F in E end;
       change (MSGBUFSIZ >? 0) with true in E; discriminate.
  exists line. split; [reflexivity|]. apply (C72_line_exact level set force prog text suffix); try assumption.
  destruct (syslog_shape _ _ _ _ _ _ _ E) as (full & m1 & m2 & -> & M & F & L & T).
  assert (Sz : zlen full <= 4 * zlen m1).
  { rewrite F. clear. induction m1 as [|c m IH]; cbn [map concat]; [unfold zlen; cbn [length]; lia|].
    rewrite zlen_app, zlen_cons. pose proof (vis_max isgraph iscntrl c LOG_SYSLOG_VIS). lia. }
  rewrite M, zlen_app in Len. pose proof (zlen_nonneg _ m2). rewrite ztake_all by lia. lia.
Qed.

(** Messages above the configured level are dropped unless forced, and only
    those. *)
Theorem C72_level : forall level set force handler stderr prog text suffix,
  do_log level set force handler stderr prog text suffix = Nothing <-> force = false /\ level_num set < level_num level.
Proof.
  intros level set force handler stderr prog text suffix. unfold VisModel.do_log.
  destruct (negb force && (level_num level >? level_num set)) eqn:Q.
  - split; [intros _|reflexivity]. destruct force; [discriminate|]. cbn [negb andb] in Q. split; [reflexivity|lia].
  - split.
    + intros E. exfalso. cbv zeta in E.
      match type of E with context [strnvis ?a ?b ?c ?d ?f] =>
         destruct (strnvis_ok a b c d f) as (m1 & m2 & _ & F & _); [unfold MSGBUFSIZ; lia|]; rewrite F in E end.
      change (MSGBUFSIZ >? 0) with true in E. cbv iota in E. destruct handler; [discriminate|]. destruct (negb (stderr =? 0)); discriminate.
    + intros [-> L]. cbn [negb andb] in Q. lia.
Qed.

(** Standard error lets a few more characters through: bell, backspace, tab,
    newline, carriage return, and bytes above 127 that the locale calls
    graphic; never an escape character.  The program's own name is printed as
    it is.  Without it the line always ends in CR LF. *)
Definition terminal_byte (b : Z) : Prop :=
  printable b \/ b = 7 \/ b = 8 \/ b = 9 \/ b = 10 \/ b = 13 \/ (128 <= b <= 255 /\ isgraph b = true).
Theorem C72_stderr : forall level set force stderr prog text suffix line,
  c_string text -> (forall s, suffix = Some s -> c_string s) -> Forall terminal_byte prog ->
  do_log level set force false stderr prog text suffix = Written line ->
  Forall terminal_byte line /\ zlen line <= 1023 /\ (stderr = 1 -> exists l, line = l ++ [13; 10]).
Proof.
  intros level set force stderr prog text suffix line Ht Hs Hp E. unfold VisModel.do_log in E. destruct (negb force && _); [discriminate|].
  cbv zeta in E. destruct (negb (stderr =? 0)) eqn:Qs.
  2:{ destruct (fst _); discriminate. }
  set (mb := match suffix with Some s => _ | None => _ end) in E.
  assert (Hc : c_string mb).
  { unfold mb. assert (Hm : c_string (match level_text level true with
        | Some w => ztake (MSGBUFSIZ - 1) (w ++ bs ": " ++ text) | None => ztake (MSGBUFSIZ - 1) text end)).
    { destruct (level_text level true) as [w|] eqn:W; [|now apply c_string_take]. apply c_string_take.
      apply c_string_app; [|apply c_string_app; [cs|exact Ht]]. destruct level; cbn [level_text] in W; try discriminate; injection W as <-; cs. }
    destruct suffix as [s|]; [|exact Hm]. apply c_string_take. apply c_string_app; [exact Hm|]. apply c_string_app; [cs|now apply Hs]. }
  destruct (strnvis_ok isgraph iscntrl mb MSGBUFSIZ LOG_STDERR_VIS) as (m1 & m2 & M & F & L & _ & T & _); [unfold MSGBUFSIZ; lia|].
  rewrite F in E. change (MSGBUFSIZ >? 0) with true in E. cbv iota in E. injection E as <-.
  assert (Hm : c_string m1) by (rewrite M in Hc; now apply Forall_app in Hc as [C _]).
  pose proof (stderr_all isgraph iscntrl Cls m1 Hm) as P. set (full := concat _) in *.
  assert (Tk : forall n l, Forall terminal_byte l -> Forall terminal_byte (ztake n l)).
  { intros n l H. unfold ztake. rewrite Forall_forall in *. intros b Hb. apply H. rewrite <- (firstn_skipn (Z.to_nat n)). apply in_or_app. now left. }
  split; [|split].
  - apply Tk. apply Forall_app. split.
    + destruct (stderr >? 1); [|constructor]. apply Forall_app. split; [exact Hp|]. cbn [bs]. repeat (apply Forall_cons || apply Forall_nil); left; unfold printable; cbn; lia.
    + apply Forall_app. split; [apply Tk; exact P|]. repeat (apply Forall_cons || apply Forall_nil); unfold terminal_byte; auto 10.
  - unfold ztake, zlen. rewrite firstn_length. unfold MSGBUFSIZ. lia.
  - intros ->. exists (ztake (MSGBUFSIZ - 3) full). change (1 >? 1) with false. cbv iota. cbn [app].
    rewrite ztake_all; [reflexivity|]. rewrite zlen_app. change (zlen [13; 10]) with 2.
    unfold ztake, zlen. rewrite firstn_length. unfold MSGBUFSIZ. lia.
Qed.

(** The encoder itself: it never writes past its buffer, writes the encoding
    of the longest beginning that fits, and returns the size the whole would
    have had. *)
Theorem C72_strnvis : forall src siz flag, 0 <= siz ->
  exists m1 m2, src = m1 ++ m2 /\
    fst (strnvis isgraph iscntrl src siz flag) = (if siz >? 0 then Some (concat (map (fun c => vis isgraph iscntrl c flag) m1)) else None) /\
    (0 < siz -> zlen (concat (map (fun c => vis isgraph iscntrl c flag) m1)) < siz) /\
    (forall c r, m2 = c :: r -> siz <= zlen (concat (map (fun c => vis isgraph iscntrl c flag) (m1 ++ [c])))) /\
    (siz <> 1 -> snd (strnvis isgraph iscntrl src siz flag) = zlen (concat (map (fun c => vis isgraph iscntrl c flag) src))).
Proof.
  intros src siz flag Hs. destruct (strnvis_ok isgraph iscntrl src siz flag Hs) as (m1 & m2 & A & B & C & _ & D & E).
  exists m1, m2. auto.
Qed.

(** A file name sent by scp after encoding holds no newline, so it cannot
    end the protocol line it is put in (scp.c:1411-1414). *)
Theorem C72_scp_name : forall name enc, c_string name -> fst (strnvis isgraph iscntrl name 4096 VIS_NL) = Some enc -> ~ In 10 enc.
Proof.
  intros name enc Hn E. destruct (strnvis_ok isgraph iscntrl name 4096 VIS_NL) as (m1 & m2 & M & F & _); [lia|].
  rewrite F in E. change (4096 >? 0) with true in E. cbv iota in E. injection E as <-.
  assert (Hm : c_string m1) by (rewrite M in Hn; now apply Forall_app in Hn as [C _]). clear M F m2 Hn name.
  induction m1 as [|c m IH]; cbn [map concat In]; [tauto|]. inversion Hm as [|? ? Hc Hr]; subst.
  rewrite in_app_iff. intros [H|H]; [now apply (nl_vis isgraph iscntrl Cls c Hc)|now apply IH].
Qed.
End P.

(** With a buffer of one byte the value returned is 0 for every source. *)
Theorem C72_strnvis_one_byte_refuted :
  exists isgraph iscntrl src, ascii_classes isgraph iscntrl /\ c_string src /\
    snd (strnvis isgraph iscntrl src 1 LOG_SYSLOG_VIS) <> zlen (concat (map (fun c => vis isgraph iscntrl c LOG_SYSLOG_VIS) src)).
Proof.
  exists (fun c => (33 <=? c) && (c <=? 126)), (fun c => (c <? 32) || (c =? 127)), (bs "abc").
  split; [intros c Hc; split; lia|]. split; [cs|]. vm_compute. discriminate.
Qed.

(** With the program name in front the end of the line can be lost. *)
Theorem C72_stderr_unended_refuted :
  exists isgraph iscntrl prog text line, ascii_classes isgraph iscntrl /\ c_string text /\ c_string prog /\
    do_log isgraph iscntrl ERROR INFO false false 2 prog text None = Written line /\ ~ In 10 line.
Proof.
  exists (fun c => (33 <=? c) && (c <=? 126)), (fun c => (c <? 32) || (c =? 127)), (bs "sshd"), (repeat 97 1020).
  eexists. split; [intros c Hc; split; lia|]. split; [apply Forall_forall; intros b Hb; apply repeat_spec in Hb; subst; lia|].
  split; [cs|]. split; [vm_compute; reflexivity|].
  intros H. assert (F : Forall (fun b => negb (b =? 10) = true) [10]) by
    (apply Forall_forall; intros b Hb; destruct Hb as [<-|[]]; exfalso; revert H; cbn [In]; intuition lia).
  inversion F; subst. discriminate.
Qed.

(** A login name with a newline, an escape sequence and a backslash. *)
Definition ex_graph (c : Z) : bool := (33 <=? c) && (c <=? 126).
Definition ex_cntrl (c : Z) : bool := (c <? 32) || (c =? 127).
Example C72_case :
  let text := bs "Invalid user " ++ [114; 10; 27; 92] ++ bs " from ::1" in
  ascii_classes ex_graph ex_cntrl /\ c_string text /\
  do_log ex_graph ex_cntrl INFO INFO false false 0 [] text None = Syslog (bs "Invalid user r\n\033\\ from ::1").
Proof.
  split; [intros c Hc; unfold ex_graph, ex_cntrl; split; lia|]. split; [cs|]. vm_compute. reflexivity.
Qed.
Print Assumptions C72_syslog.
Print Assumptions C72_reads.
Print Assumptions C72_line_exact.
Print Assumptions C72_handler.
Print Assumptions C72_unambiguous.
Print Assumptions C72_short.
Print Assumptions C72_level.
Print Assumptions C72_stderr.
Print Assumptions C72_strnvis.
Print Assumptions C72_scp_name.
Print Assumptions C72_strnvis_one_byte_refuted.
Print Assumptions C72_stderr_unended_refuted.
