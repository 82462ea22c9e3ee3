(** C55: text printed through the multibyte-safe routines.  [dec] is the
    locale's decoder (by number of the call), [width] its widths; [grow] says
    which enlargements of the buffer succeed. *)
From Coq Require Import String.
From Verif Require Import Base Bits VisModel VisSpec VisProof UtfModel UtfSpec UtfProof UtfProof2.
Local Open Scope Z_scope.

(** Every string has exactly one rendering. *)
Theorem C55_rendering : forall dec width lines n src, sane dec width ->
  exists items, renders dec width lines n src items /\ forall items', renders dec width lines n src items' -> items = items'.
Proof.
  intros dec width lines n src S. destruct (renders_total dec width lines S (length src) n src) as [l H]; [lia|].
  exists l. split; [exact H|]. intros l' H'. eapply renders_fun; eassumption.
Qed.

(** Escapes are used in these encodings only. *)
Definition safe_codesets : list (list Z) := map bs ["UTF-8"; "US-ASCII"; "ANSI_X3.4-1968"; "ISO8859-1"; "646"; ""]%string.
Theorem C55_codesets : forall codeset, dangerous_locale codeset = false <-> In codeset safe_codesets.
Proof.
  intros c. unfold dangerous_locale, safe_codesets. cbn [map In]. rewrite !andb_false_iff, !negb_false_iff, !beqb_eq. change (bs "") with (@nil Z).
  split; intros H; decompose [or] H; subst; auto 10; contradiction.
Qed.

Section P.
Variable isgraph iscntrl : Z -> bool.
Hypothesis Cls : ascii_classes isgraph iscntrl.
Variable dec : nat -> list Z -> option (Z * Z).
Variable width : Z -> Z.
Hypothesis Sane : sane dec width.
Variable codeset : list Z.
Variable grow : nat -> bool.
Notation print := (vasnmprintf isgraph iscntrl dec width codeset grow).

Definition no_wp (wp : option Z) : bool := match wp with None => true | Some _ => false end.
Definition room (wp : option Z) : Z := match wp with None => 2147483647 | Some w => w end.
Definition good_wp (wp : option Z) : Prop := match wp with None => True | Some w => 0 <= w <= 2147483647 end.
(** Sizes above INT_MAX count as INT_MAX. *)
Definition limit (maxsz : Z) : Z := Z.min maxsz 2147483647.

(** Common part of the theorems. *)
Lemma run_ok : forall f maxsz wp items, is_bytes f -> f <> [] -> 0 <= maxsz -> good_wp wp -> 4 * zlen f <= 2147483647 ->
  renders dec width (no_wp wp) 0 (c_str f) items ->
  exists o s, chars isgraph iscntrl dec width codeset grow (S (length (c_str f))) (no_wp wp) (limit maxsz) (room wp) (c_str f)
      (mkP [] (zlen (c_str f) + 1) true 0 0 0 0) = Some o /\ (o = PGo s \/ o = PStop s) /\
    post (limit maxsz) (room wp) items (mkP [] (zlen (c_str f) + 1) true 0 0 0 0) o /\
    print (Some f) maxsz wp true = RDone (p_dst s) (p_width s) (if (p_ret s <? limit maxsz) && negb (p_print s) then -1 else p_ret s).
Proof.
  intros f maxsz wp items Hf Nf Hm Hw H4 R.
  assert (Hl : 0 <= limit maxsz <= INT_MAX) by (unfold limit, INT_MAX; lia).
  assert (Hr : 0 <= room wp <= INT_MAX) by (unfold INT_MAX; destruct wp; cbn [room good_wp] in *; lia).
  pose proof (c_str_len f) as Lc. pose proof (zlen_nonneg _ (c_str f)) as Ln.
  pose proof (renders_need dec width (no_wp wp) _ _ _ R) as Need.
  destruct (chars_ok isgraph iscntrl Cls dec width codeset grow (limit maxsz) (room wp) Hr Sane (no_wp wp) 0%nat (c_str f) items R
    (S (length (c_str f))) (mkP [] (zlen (c_str f) + 1) true 0 0 0 0)) as (o & E & P).
  - now apply c_str_ok.
  - lia.
  - reflexivity.
  - unfold inv. cbn [p_dst p_sz p_width]. change (zlen (@nil Z)) with 0. split; [lia|]. split; [lia|]. now left.
  - cbn [p_ret]. lia.
  - cbn [p_ret]. unfold INT_MAX. lia.
  - assert (U : print (Some f) maxsz wp true =
      match o with
      | PUndef => RUndef
      | PGo s | PStop s => if zlen (p_dst s) <? p_sz s then
          RDone (p_dst s) (p_width s) (if (p_ret s <? limit maxsz) && negb (p_print s) then -1 else p_ret s) else RUndef
      end).
    { unfold vasnmprintf. rewrite (proj2 (Z.eqb_neq (zlen f) 0)).
      2:{ destruct f; [now elim Nf|]. rewrite zlen_cons. pose proof (zlen_nonneg _ f). lia. }
      cbn [negb]. cbv zeta. replace (if maxsz >? INT_MAX then INT_MAX else maxsz) with (limit maxsz).
      2:{ unfold limit, INT_MAX. destruct (maxsz >? 2147483647) eqn:G; lia. }
      change (match wp with None => INT_MAX | Some w => w end) with (room wp). change (match wp with None => true | Some _ => false end) with (no_wp wp).
      rewrite E. destruct o; reflexivity. }
    destruct o as [s|s|]; [| |destruct P].
    + exists (PGo s), s. split; [exact E|]. split; [now left|]. split; [exact P|]. rewrite U. destruct P as [(I & _) _]. now rewrite (proj2 (Z.ltb_lt _ _) I).
    + exists (PStop s), s. split; [exact E|]. split; [now right|]. split; [exact P|]. rewrite U. destruct P as [(I & _) _]. now rewrite (proj2 (Z.ltb_lt _ _) I).
Qed.

(** Whatever the bytes, the locale and the allocator do: no memory error and
    no arithmetic overflow; the result is the rendering of the text, cut
    between two of its units; it is shorter than the size limit and no wider
    than the width limit, and the width reported is its width.  When the value
    returned passes the usual check the rendering is complete and the value
    is its length. *)
Theorem C55_output : forall f maxsz wp, is_bytes f -> f <> [] -> 0 <= maxsz -> good_wp wp -> 4 * zlen f <= 2147483647 ->
  exists items k ret,
    renders dec width (no_wp wp) 0 (c_str f) items /\ (k <= length items)%nat /\
    print (Some f) maxsz wp true = RDone (text (firstn k items)) (sum it_cols (firstn k items)) ret /\
    (text (firstn k items) = [] \/ zlen (text (firstn k items)) < limit maxsz) /\
    sum it_cols (firstn k items) <= room wp /\
    (0 <= ret < maxsz -> k = length items /\ ret = zlen (text items)).
Proof.
  intros f maxsz wp Hf Nf Hm Hw H4. destruct (renders_total dec width (no_wp wp) Sane (length (c_str f)) 0%nat (c_str f)) as [items R]; [lia|].
  destruct (run_ok f maxsz wp items Hf Nf Hm Hw H4 R) as (o & s & E & O & P & U). exists items.
  destruct O as [-> | ->].
  - destruct P as (I & R0 & R1 & (k & X & _ & E1)). cbn [p_print p_ret p_dst p_width] in *. destruct (E1 eq_refl) as [(Q1 & Q2 & Q3)|(Q1 & Q2 & Q3)].
    + exists k, (p_ret s). destruct X as (X1 & X2 & X3). cbn [p_dst p_width] in X2, X3. cbn [app] in X2.
      split; [exact R|]. split; [exact X1|]. rewrite U, Q1. cbn [negb]. rewrite andb_false_r, X2, X3, Z.add_0_l. split; [reflexivity|].
      destruct I as (I1 & I2 & I3). rewrite <- X2. split; [exact I3|]. split; [lia|]. intros _. split; [exact Q2|]. rewrite text_len. lia.
    + exists k, (if p_ret s <? limit maxsz then -1 else p_ret s). destruct X as (X1 & X2 & X3). cbn [p_dst p_width] in X2, X3. cbn [app] in X2.
      split; [exact R|]. split; [exact X1|]. rewrite U, Q1. cbn [negb]. rewrite andb_true_r, X2, X3, Z.add_0_l. split; [reflexivity|].
      destruct I as (I1 & I2 & I3). rewrite <- X2. split; [exact I3|]. split; [lia|]. intros Hr. exfalso.
      destruct (p_ret s <? limit maxsz) eqn:G; [lia|].
      pose proof (renders_need dec width (no_wp wp) _ _ _ R) as Need. pose proof (c_str_len f). unfold limit in G. lia.
  - destruct P as (I & (k & X & Q3) & _). exists k, (-1). destruct X as (X1 & X2 & X3). cbn [p_dst p_width] in X2, X3. cbn [app] in X2.
    split; [exact R|]. split; [exact X1|]. rewrite U, Q3, X2, X3, Z.add_0_l. split; [match goal with |- context [if ?b then -1 else -1] => destruct b end; reflexivity|].
    destruct I as (I1 & I2 & I3). rewrite <- X2. split; [exact I3|]. split; [lia|]. lia.
Qed.

(** In a locale whose encoding can be recovered from errors, and with memory:
    the rendering is cut only where the next unit does not fit, and the value
    returned is the length of what was written plus what the rest would have
    needed, or -1 if that would pass for success. *)
Theorem C55_exact : forall f maxsz wp items, is_bytes f -> f <> [] -> 0 <= maxsz -> good_wp wp -> 4 * zlen f <= 2147483647 ->
  dangerous_locale codeset = false -> (forall n, grow n = true) ->
  renders dec width (no_wp wp) 0 (c_str f) items ->
  exists k, (k <= length items)%nat /\
    print (Some f) maxsz wp true = RDone (text (firstn k items)) (sum it_cols (firstn k items))
      (let r := zlen (text (firstn k items)) + sum it_need (skipn k items) in
       if (k =? length items)%nat then r else if r <? limit maxsz then -1 else r) /\
    (forall it, nth_error items k = Some it ->
      limit maxsz <= zlen (text (firstn k items)) + it_need it \/ room wp < sum it_cols (firstn k items) + it_wneed it).
Proof.
  intros f maxsz wp items Hf Nf Hm Hw H4 Sf Gr R.
  destruct (run_ok f maxsz wp items Hf Nf Hm Hw H4 R) as (o & s & E & [-> | ->] & P & U).
  2:{ exfalso. now apply (chars_go isgraph iscntrl dec width codeset grow (limit maxsz) (room wp) Gr Sf) in E. }
  destruct P as (I & R0 & R1 & (k & X & _ & E1)). cbn [p_print p_ret p_dst p_width] in *. destruct X as (X1 & X2 & X3). cbn [p_dst p_width app] in X2, X3.
  exists k. split; [exact X1|]. rewrite U, X2, X3, Z.add_0_l. cbv zeta. destruct (E1 eq_refl) as [(Q1 & -> & Q3)|(Q1 & (it & Q2 & Nf') & Q3)].
  - rewrite Q1, Nat.eqb_refl. cbn [negb]. rewrite andb_false_r, skipn_all, firstn_all. cbn [sum]. split; [f_equal; rewrite text_len; lia|].
    intros it Hi. exfalso. assert (length items < length items)%nat; [|lia]. apply nth_error_Some. congruence.
  - assert (Lk : (k < length items)%nat) by (apply nth_error_Some; congruence). rewrite Q1, (proj2 (Nat.eqb_neq k (length items))) by lia. cbn [negb].
    rewrite andb_true_r. split.
    + replace (p_ret s) with (zlen (text (firstn k items)) + sum it_need (skipn k items)) by (rewrite text_len; lia). reflexivity.
    + intros it' Hi. assert (it' = it) as -> by congruence. unfold nofit in Nf'. rewrite X2, X3, Z.add_0_l in Nf'. exact Nf'.
Qed.

(** So text that fits is printed completely. *)
Theorem C55_complete : forall f maxsz wp items, is_bytes f -> f <> [] -> 0 <= maxsz -> good_wp wp -> 4 * zlen f <= 2147483647 ->
  dangerous_locale codeset = false -> (forall n, grow n = true) ->
  renders dec width (no_wp wp) 0 (c_str f) items ->
  (forall a it b, items = a ++ it :: b -> zlen (text a) + it_need it < limit maxsz /\ sum it_cols a + it_wneed it <= room wp) ->
  print (Some f) maxsz wp true = RDone (text items) (sum it_cols items) (zlen (text items)).
Proof.
  intros f maxsz wp items Hf Nf Hm Hw H4 Sf Gr R Fit.
  destruct (C55_exact f maxsz wp items Hf Nf Hm Hw H4 Sf Gr R) as (k & L & U & N).
  destruct (nth_error items k) as [it|] eqn:E.
  - exfalso. destruct (nth_error_split _ _ E) as (a & b & -> & <-). specialize (N it eq_refl). specialize (Fit a it b eq_refl).
    rewrite firstn_app, Nat.sub_diag, firstn_all in N. cbn [firstn] in N. rewrite app_nil_r in N. lia.
  - apply nth_error_None in E. assert (k = length items) as -> by lia. rewrite U, firstn_all, skipn_all, Nat.eqb_refl. cbn [sum]. cbv zeta. now rewrite Z.add_0_r.
Qed.

(** In any other locale a text that would need escapes is refused. *)
Theorem C55_dangerous : forall f maxsz wp items str w ret, is_bytes f -> f <> [] -> 0 <= maxsz -> good_wp wp -> 4 * zlen f <= 2147483647 ->
  dangerous_locale codeset = true ->
  renders dec width (no_wp wp) 0 (c_str f) items ->
  print (Some f) maxsz wp true = RDone str w ret -> 0 <= ret -> text items = c_str f.
Proof.
  intros f maxsz wp items str w ret Hf Nf Hm Hw H4 Dg R U' Hr.
  destruct (run_ok f maxsz wp items Hf Nf Hm Hw H4 R) as (o & s & E & [-> | ->] & P & U).
  - eapply (danger isgraph iscntrl dec width codeset grow (limit maxsz) (room wp) Sane Dg); [exact R| |exact E]. reflexivity.
  - exfalso. rewrite U in U'. injection U' as _ _ <-. destruct P as (_ & (k & _ & Q) & _). rewrite Q in Hr. destruct (_ && _); lia.
Qed.

(** Failures to format or to allocate give no text at all. *)
Theorem C55_failure : forall f maxsz wp, print None maxsz wp true = RFail /\ (f <> [] -> print (Some f) maxsz wp false = RFail) /\
  (forall mem, print (Some []) maxsz wp mem = RDone [] 0 0).
Proof.
  intros f maxsz wp. split; [reflexivity|]. split; [|reflexivity]. intros N. unfold vasnmprintf. rewrite (proj2 (Z.eqb_neq (zlen f) 0)); [reflexivity|].
  destruct f; [now elim N|]. rewrite zlen_cons. pose proof (zlen_nonneg _ f). lia.
Qed.
End P.

(** ** What a terminal sees *)
(** For a decoder without state: the output decodes, and everything in it has
    a width or is a permitted line character. *)
Theorem C55_readable : forall isgraph iscntrl d width codeset grow f maxsz wp str w ret,
  ascii_classes isgraph iscntrl -> plain_decoder d -> sane (fun _ => d) width -> (forall b, printable b -> 0 <= width b) ->
  is_bytes f -> 0 <= maxsz -> good_wp wp -> 4 * zlen f <= 2147483647 ->
  vasnmprintf isgraph iscntrl (fun _ => d) width codeset grow (Some f) maxsz wp true = RDone str w ret ->
  exists wcs, decodes d str wcs /\ Forall (fun wc => 0 <= width wc \/ (wp = None /\ (wc = 10 \/ wc = 13 \/ wc = 9))) wcs.
Proof.
  intros isgraph iscntrl d width codeset grow f maxsz wp str w ret Cls Pl Sn Wd Hf Hm Hw H4 U.
  destruct f as [|b f].
  { change (RDone [] 0 0 = RDone str w ret) in U. injection U as <- _ _. exists []. split; constructor. }
  destruct (C55_output isgraph iscntrl Cls (fun _ => d) width Sn codeset grow (b :: f) maxsz wp Hf) as (items & k & ret' & R & _ & U' & _); auto; [discriminate|].
  rewrite U in U'. injection U' as -> _ _.
  pose proof (renders_ok d width (no_wp wp) Pl _ _ _ R (c_str_ok _ Hf)) as Ok.
  assert (Okk : Forall (item_ok d width (no_wp wp)) (firstn k items)).
  { rewrite Forall_forall in *. intros it Hi. apply Ok. rewrite <- (firstn_skipn k items). apply in_or_app. now left. }
  destruct (items_decode d width (no_wp wp) Pl Wd _ Okk) as (wcs & D & F). exists wcs. split; [exact D|].
  eapply Forall_impl; [|exact F]. intros wc [S|[S1 S2]]; [now left|right]. split; [destruct wp; [discriminate|reflexivity]|exact S2].
Qed.

(** For UTF-8: no control character of any kind, neither as a byte nor as a
    decoded character, apart from LF, CR and TAB where no width is given. *)
Theorem C55_utf8 : forall isgraph iscntrl width grow f maxsz wp str w ret,
  ascii_classes isgraph iscntrl -> (forall wc, -1 <= width wc <= 2147483647) -> (forall b, printable b -> 0 <= width b) ->
  (forall wc, control wc -> width wc < 0) ->
  is_bytes f -> 0 <= maxsz -> good_wp wp -> 4 * zlen f <= 2147483647 ->
  vasnmprintf isgraph iscntrl (fun _ => utf8) width (bs "UTF-8") grow (Some f) maxsz wp true = RDone str w ret ->
  (exists wcs, decodes utf8 str wcs /\ Forall (fun wc => ~ control wc \/ (wp = None /\ (wc = 10 \/ wc = 13 \/ wc = 9))) wcs) /\
  Forall (fun b => (32 <= b /\ b <> 127) \/ (wp = None /\ (b = 10 \/ b = 13 \/ b = 9))) str.
Proof.
  intros isgraph iscntrl width grow f maxsz wp str w ret Cls Wr Wd Wc Hf Hm Hw H4 U.
  destruct (C55_readable isgraph iscntrl utf8 width (bs "UTF-8") grow f maxsz wp str w ret Cls utf8_plain (utf8_sane width Wr) Wd Hf Hm Hw H4 U) as (wcs & D & F).
  assert (F' : Forall (fun wc => ~ control wc \/ (wp = None /\ (wc = 10 \/ wc = 13 \/ wc = 9))) wcs).
  { eapply Forall_impl; [|exact F]. intros wc [S|S]; [left|now right]. intros C. specialize (Wc wc C). lia. }
  split; [exists wcs; now split|].
  assert (Nn : Forall (fun b => 0 <= b) str).
  { destruct f as [|b0 f]; [change (RDone [] 0 0 = RDone str w ret) in U; injection U as <- _ _; constructor|].
    destruct (C55_output isgraph iscntrl Cls (fun _ => utf8) width (utf8_sane width Wr) (bs "UTF-8") grow (b0 :: f) maxsz wp Hf) as (items & k & ret' & R & _ & U' & _); auto; [discriminate|].
    rewrite U in U'. injection U' as -> _ _.
    assert (G : Forall (fun it => Forall (fun b => 0 <= b) (it_bytes it)) items).
    { pose proof (c_str_ok _ Hf) as C. revert C. clear - R. 
      induction R as [n|n p rest wc l E N LC R IH|n p rest wc l E N LC W R IH|n p rest wc l E N LC W R IH|n b rest l E R IH]; intros C.
      - constructor.
      - apply Forall_app in C as [Cp Cr]. constructor; [|now apply IH]. eapply Forall_impl; [|exact Cp]. cbv beta. lia.
      - apply Forall_app in C as [Cp Cr]. constructor; [|now apply IH]. eapply Forall_impl; [|exact Cp]. cbv beta. lia.
      - apply Forall_app in C as [Cp Cr]. apply Forall_app. split; [|now apply IH]. apply Forall_forall. intros it Hi. apply in_map_iff in Hi. destruct Hi as (b & <- & Hb).
        cbn [esc_item it_bytes]. rewrite Forall_forall in Cp. eapply Forall_impl; [|apply (escaped_printable (fun _ => 0)); [intros; lia|now apply Cp]]. unfold printable. lia.
      - inversion C; subst. constructor; [|now apply IH]. cbn [esc_item it_bytes]. eapply Forall_impl; [|apply (escaped_printable (fun _ => 0)); [intros; lia|assumption]]. unfold printable. lia. }
    unfold text. apply Forall_forall. intros b Hb. apply in_concat in Hb. destruct Hb as (p & Hp & Hb). apply in_map_iff in Hp. destruct Hp as (it & <- & Hi).
    rewrite Forall_forall in G. assert (Hi' : In it items) by (rewrite <- (firstn_skipn k items); apply in_or_app; now left). specialize (G it Hi'). rewrite Forall_forall in G. now apply G. }
  clear - D F' Nn. revert Nn. induction D as [|p r wc l N E D IH]; intros Nn; [constructor|]. inversion F' as [|? ? Hw Hr]; subst.
  apply Forall_app in Nn as [Np Nr]. apply Forall_app. split; [|now apply IH].
  destruct (utf8_inv _ _ _ E) as (q & t & Q & L & _ & _ & K). destruct (app_same_len _ _ _ _ _ Q) as [<- <-]; [lia|].
  destruct K as [[-> K]|[_ K]].
  - constructor; [|constructor]. inversion Np; subst. destruct Hw as [Hw|Hw]; [left|now right]. unfold control in Hw. lia.
  - eapply Forall_impl; [|exact K]. cbv beta. intros b Hb. left. lia.
Qed.

(** snmprintf copies the whole result; fmprintf writes the rendering or
    nothing. *)
Theorem C55_snmprintf : forall isgraph iscntrl dec width codeset grow f sz wp, ascii_classes isgraph iscntrl -> sane dec width ->
  is_bytes f -> 0 < sz -> good_wp wp -> 4 * zlen f <= 2147483647 ->
  exists str w ret, vasnmprintf isgraph iscntrl dec width codeset grow (Some f) sz wp true = RDone str w ret /\
    snmprintf isgraph iscntrl dec width codeset grow (Some f) sz wp true = Some (str, ret) /\ zlen str < sz.
Proof.
  intros isgraph iscntrl dec width codeset grow f sz wp Cls Sn Hf Hs Hw H4. destruct f as [|b f].
  { exists [], 0, 0. split; [reflexivity|]. split; [|change (zlen (@nil Z)) with 0; lia]. unfold snmprintf. change (vasnmprintf isgraph iscntrl dec width codeset grow (Some []) sz wp true) with (RDone [] 0 0).
    unfold strlcpy, ztake. now rewrite firstn_nil. }
  destruct (C55_output isgraph iscntrl Cls dec width Sn codeset grow (b :: f) sz wp Hf) as (items & k & ret & R & _ & U & L & _); auto; [discriminate|lia|].
  assert (Ls : zlen (text (firstn k items)) < sz) by (destruct L as [-> | L]; [change (zlen (@nil Z)) with 0; lia|unfold limit in L; lia]).
  eexists _, _, ret. split; [exact U|]. split; [|exact Ls]. unfold snmprintf. rewrite U. unfold strlcpy. now rewrite ztake_all by lia.
Qed.
(** When the text cannot be formatted, the caller gets an empty text and -1, and
    nothing is printed. *)
Theorem C55_unformatted : forall isgraph iscntrl dec width codeset grow sz wp mem,
  snmprintf isgraph iscntrl dec width codeset grow None sz wp mem = Some ([], -1) /\
  vfmprintf isgraph iscntrl dec width codeset grow None mem = Some (None, -1).
Proof. intros. split; reflexivity. Qed.
Print Assumptions C55_unformatted.
Theorem C55_fmprintf : forall isgraph iscntrl dec width codeset grow f out ret, ascii_classes isgraph iscntrl -> sane dec width ->
  is_bytes f -> 4 * zlen f <= 2147483647 ->
  vfmprintf isgraph iscntrl dec width codeset grow (Some f) true = Some (Some out, ret) ->
  exists items, renders dec width true 0 (c_str f) items /\ out = text items /\ ret = zlen out.
Proof.
  intros isgraph iscntrl dec width codeset grow f out ret Cls Sn Hf H4 E. destruct f as [|b f].
  { change (Some (Some (@nil Z), 0) = Some (Some out, ret)) in E. injection E as <- <-. exists []. split; [constructor|]. split; reflexivity. }
  destruct (C55_output isgraph iscntrl Cls dec width Sn codeset grow (b :: f) INT_MAX None Hf) as (items & k & r & R & Lk & U & L & _ & K); [discriminate|unfold INT_MAX; lia|exact I|exact H4|].
  unfold vfmprintf in E. rewrite U in E. destruct (r <? 0) eqn:Q; [discriminate|]. injection E as <- <-. exists items. split; [exact R|].
  destruct (Z.lt_ge_cases r INT_MAX) as [Lr|Lr].
  - destruct K as [-> ->]; [lia|]. rewrite firstn_all. split; reflexivity.
  - exfalso. pose proof (renders_need dec width _ _ _ _ R) as Need. pose proof (c_str_len (b :: f)) as Lc.
    destruct (run_ok isgraph iscntrl Cls dec width Sn codeset grow (b :: f) INT_MAX None items) as (o & s & _ & O & P & U'); try assumption; [discriminate|unfold INT_MAX; lia|exact I|].
    rewrite U in U'. injection U' as _ _ Er. cbn [no_wp] in *. destruct O as [-> | ->].
    + destruct P as (_ & _ & P & _). cbn [p_ret] in P. revert Er. destruct (_ && _); intros Er; [lia|]. unfold INT_MAX in *. 
      assert (r <= sum it_need items) by lia. assert (4 * zlen (b :: f) = 2147483647) by lia. lia.
    + destruct P as (_ & (k' & _ & P) & _). rewrite P in Er. destruct (_ && _); lia.
Qed.

(** The value returned is an int: for a text of half a gigabyte of unprintable
    bytes it overflows. *)
Lemma overflow_run : forall n fuel s, (n < fuel)%nat -> p_print s = false -> 0 <= p_ret s <= INT_MAX -> INT_MAX < p_ret s + 4 * Z.of_nat n ->
  chars (fun c => (33 <=? c) && (c <=? 126)) (fun c => (c <? 32) || (c =? 127)) (fun _ _ => None) (fun _ => -1) (bs "UTF-8") (fun _ => true)
    fuel true 0 INT_MAX (repeat 1 n) s = Some PUndef.
Proof.
  induction n as [|n IH]; intros fuel s F P R0 R1; [lia|]. destruct fuel as [|fuel]; [lia|]. cbn [repeat chars]. unfold one_char. cbv zeta.
  change (dangerous_locale (bs "UTF-8")) with false. cbv iota. change (ztake 1 (1 :: repeat 1 n)) with [1]. change (zdrop 1 (1 :: repeat 1 n)) with (repeat 1 n).
  cbn [escape]. change (negb (is_int (INT_MAX - 4))) with false. cbv iota zeta. cbn [called p_print]. rewrite P. cbn [andb]. cbn [called p_print]. rewrite P.
  unfold add_ret. cbn [called p_ret]. rewrite (proj2 (Z.geb_le (p_ret s) 0)) by lia.
  destruct (is_int (p_ret s + 4)) eqn:Q; [|reflexivity]. apply IH; [lia|exact P| |]; cbn [set_ret called p_ret]; unfold is_int in Q; [lia|lia].
Qed.
Theorem C55_overflow_refuted :
  exists isgraph iscntrl width f, ascii_classes isgraph iscntrl /\ sane (fun _ _ => None) width /\ is_bytes f /\ zlen f <= INT_MAX /\
    vasnmprintf isgraph iscntrl (fun _ _ => None) width (bs "UTF-8") (fun _ => true) (Some f) 0 None true = RUndef.
Proof.
  exists (fun c => (33 <=? c) && (c <=? 126)), (fun c => (c <? 32) || (c =? 127)), (fun _ => -1), (repeat 1 (Z.to_nat 536870912)).
  split; [intros c Hc; split; lia|]. split; [split; [discriminate|lia]|].
  assert (B : forall n, is_bytes (repeat 1 n)) by (intros n; apply Forall_forall; intros b Hb; apply repeat_spec in Hb; subst; unfold is_byte; lia).
  split; [apply B|]. assert (L : forall n, zlen (repeat 1 n) = Z.of_nat n) by (intros n; unfold zlen; now rewrite repeat_length).
  split; [rewrite L; unfold INT_MAX; lia|].
  assert (C : forall n, c_str (repeat 1 n) = repeat 1 n) by (induction n as [|n IH]; [reflexivity|]; cbn [repeat c_str]; change (1 =? 0) with false; cbv iota; now rewrite IH).
  set (n := Z.to_nat 536870912). assert (Hn : Z.of_nat n = 536870912) by (unfold n; rewrite Z2Nat.id; lia). clearbody n.
  destruct n as [|n]; [lia|]. unfold vasnmprintf. rewrite L, Hn. change (536870912 =? 0) with false. cbv iota zeta. cbn [negb]. change (0 >? INT_MAX) with false. cbv iota.
  rewrite C, repeat_length. cbn [repeat]. set (fuel := S n). assert (Hf : (n < fuel)%nat) by (unfold fuel; lia). clearbody fuel. cbn [repeat chars]. unfold one_char. cbv zeta.
  change (dangerous_locale (bs "UTF-8")) with false. cbv iota. change (ztake 1 (1 :: repeat 1 n)) with [1]. change (zdrop 1 (1 :: repeat 1 n)) with (repeat 1 n).
  cbn [escape]. change (negb (is_int (INT_MAX - 4))) with false. cbv iota zeta. cbn [called p_print p_dst p_width]. change (zlen (@nil Z) >=? 0 - 4) with true. cbn [andb orb]. cbv iota.
  cbn [set_print p_print]. unfold add_ret. cbn [set_print called p_ret]. change (0 >=? 0) with true. change (is_int (0 + 4)) with true. cbv iota.
  rewrite overflow_run; [reflexivity|exact Hf|reflexivity|cbn; unfold INT_MAX; lia|cbn [set_ret set_print p_ret]; unfold INT_MAX; lia].
Qed.

(** A name with an escape sequence, an accented letter, a C1 control and a
    broken sequence; ten columns. *)
Definition ex_graph (c : Z) : bool := (33 <=? c) && (c <=? 126).
Definition ex_cntrl (c : Z) : bool := (c <? 32) || (c =? 127).
Definition ex_width (wc : Z) : Z := if (wc <? 32) || ((127 <=? wc) && (wc <? 160)) then -1 else 1.
Example C55_case :
  let f := [97; 27; 195; 169; 194; 155; 195; 98] in
  (forall wc, control wc -> ex_width wc < 0) /\ sane (fun _ => utf8) ex_width /\
  vasnmprintf ex_graph ex_cntrl (fun _ => utf8) ex_width (bs "UTF-8") (fun _ => true) (Some f) 100 (Some 80) true =
    RDone (bs "a\033" ++ [195; 169] ++ bs "\302\233\303b") 19 20 /\
  vasnmprintf ex_graph ex_cntrl (fun _ => utf8) ex_width (bs "UTF-8") (fun _ => true) (Some f) 100 (Some 10) true =
    RDone (bs "a\033" ++ [195; 169] ++ bs "\302") 10 (-1).
Proof.
  split; [intros wc [H|H]; unfold ex_width; [rewrite (proj2 (Z.ltb_lt _ _)) by lia; cbn [orb]; lia|
    replace ((wc <? 32) || ((127 <=? wc) && (wc <? 160))) with true by lia; lia]|].
  split; [apply utf8_sane; intros wc; unfold ex_width; destruct (_ || _); lia|].
  split; vm_compute; reflexivity.
Qed.

Print Assumptions C55_rendering.
Print Assumptions C55_codesets.
Print Assumptions C55_output.
Print Assumptions C55_exact.
Print Assumptions C55_complete.
Print Assumptions C55_dangerous.
Print Assumptions C55_failure.
Print Assumptions C55_readable.
Print Assumptions C55_utf8.
Print Assumptions C55_snmprintf.
Print Assumptions C55_fmprintf.
Print Assumptions C55_overflow_refuted.
