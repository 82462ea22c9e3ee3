(** Proofs for C76: finding principals; uniqueness of objects. *)
From Coq Require Import String.
From Verif Require Import Base Text SshbufModel SshbufSpec WireSpec MatchModel MatchSpec MatchProof MatchProps MiscNumModel AddrModel AddrProof AuthOptModel AuthOptSpec AuthOptProof Dec CertModel CertSpec CertProof SigModel SigSpec SigProof SigProof2.
Local Open Scope Z_scope.

Lemma until_names : forall l, until_empty l = names_of l.
Proof. induction l as [|[|c f] l IH]; cbn [until_empty names_of is_nil]; [reflexivity|reflexivity|]. now rewrite IH. Qed.
Lemma join_snoc : forall xs p, Forall (fun n => n <> [] /\ ~ In 44 n) xs -> add_name (join 44 xs) p = join 44 (xs ++ [p]).
Proof.
  intros xs p F. unfold add_name. destruct xs as [|x xs]; [reflexivity|].
  assert (N : is_nil (join 44 (x :: xs)) = false). { inversion F as [|? ? (H & _) _]; subst. destruct x as [|c x]; [contradiction|]. destruct xs; reflexivity. }
  rewrite N. cbn [app]. clear F N. revert x. induction xs as [|y xs IH]; intros x; [reflexivity|].
  change (join 44 (x :: y :: xs)) with (x ++ 44 :: join 44 (y :: xs)). change (join 44 (x :: (y :: xs) ++ [p])) with (x ++ 44 :: join 44 (y :: xs ++ [p])).
  rewrite <- IH. rewrite <- app_assoc. reflexivity.
Qed.
Lemma filter_fold : forall pat ps xs, Forall (fun n => n <> [] /\ ~ In 44 n) ps -> Forall (fun n => n <> [] /\ ~ In 44 n) xs ->
  fold_left (fun acc p => if match_pattern p pat then add_name acc p else acc) ps (join 44 xs) = join 44 (xs ++ filter (fun p => match_pattern p pat) ps).
Proof.
  intros pat. induction ps as [|p ps IH]; intros xs F G; cbn [fold_left filter]; [now rewrite app_nil_r|]. inversion F; subst.
  destruct (match_pattern p pat) eqn:E.
  - rewrite join_snoc by assumption. rewrite IH; [|assumption|apply Forall_app; split; [assumption|now constructor]]. now rewrite <- app_assoc.
  - now apply IH.
Qed.
Lemma filter_all : forall pats ps xs, Forall (fun n => n <> [] /\ ~ In 44 n) ps -> Forall (fun n => n <> [] /\ ~ In 44 n) xs ->
  fold_left (fun acc pat => fold_left (fun acc p => if match_pattern p pat then add_name acc p else acc) ps acc) pats (join 44 xs) =
  join 44 (xs ++ flat_map (fun pat => filter (fun p => match_pattern p pat) ps) pats).
Proof.
  induction pats as [|pat pats IH]; intros ps xs F G; cbn [fold_left flat_map]; [now rewrite app_nil_r|].
  rewrite filter_fold by assumption. rewrite IH; [now rewrite <- app_assoc|assumption|].
  apply Forall_app. split; [assumption|]. apply Forall_forall. intros x Hx. apply filter_In in Hx. rewrite Forall_forall in F. now apply F.
Qed.
Lemma names_join : forall xs, Forall (fun n => n <> [] /\ ~ In 44 n) xs -> names (join 44 xs) = xs.
Proof.
  intros xs F. unfold names. destruct xs as [|x xs]; [reflexivity|]. rewrite split_join; [|discriminate|eapply Forall_impl; [|exact F]; cbv beta; unfold free_of; tauto].
  induction F as [|y ys (H & _) F IH]; [reflexivity|]. destruct y; [contradiction|]. cbn [names_of]. now rewrite IH.
Qed.
Lemma join_nil : forall xs, Forall (fun n => n <> [] /\ ~ In 44 n) xs -> is_nil (join 44 xs) = is_nil xs.
Proof. intros xs F. destruct F as [|x xs (H & _) F]; [reflexivity|]. destruct x; [contradiction|]. destruct xs; reflexivity. Qed.
Lemma filter_principals_spec : forall who k c t, k_cert k = Some c -> Forall (fun n => n <> [] /\ ~ In 44 n) (c_principals c) ->
  filter_principals who k t =
  if check_authority k false true false t None then
    match flat_map (fun pat => filter (fun p => match_pattern p pat) (c_principals c)) (names who) with [] => None | l => Some (join 44 l) end
  else None.
Proof.
  intros who k c t E F. unfold filter_principals. rewrite E. rewrite until_names. change (names_of (split 44 who)) with (names who). cbv zeta.
  destruct (check_authority k false true false t None).
  - change (@nil Z) with (join 44 []). rewrite filter_all by auto. cbn [app]. set (l := flat_map _ _).
    assert (G : Forall (fun n => n <> [] /\ ~ In 44 n) l). { apply Forall_forall. intros x Hx. apply in_flat_map in Hx as (pat & _ & Hx). apply filter_In in Hx. rewrite Forall_forall in F. now apply F. }
    rewrite join_nil by assumption. destruct l; reflexivity.
  - assert (Q : forall l acc, fold_left (fun (a : list Z) (_ : list Z) => a) l acc = acc). { induction l as [|x l IH]; intros acc; [reflexivity|apply IH]. }
    now rewrite Q.
Qed.

Section Find.
Variable ptime : list Z -> option Z.
Variable rd : list Z -> option pkey.
Lemma find_line : forall line k t w, plain_names k -> check_line ptime rd line k None None t = Some w ->
  exists e, says_line ptime rd line e /\ suggested e k t (names w).
Proof.
  intros line k t w PN H. unfold check_line in H. destruct (parse_line ptime rd line None) as [| |e] eqn:E; try discriminate. apply parse_line_iff in E as (Sy & _). exists e. split; [assumption|].
  match type of H with match ?x with _ => _ end = _ => destruct x as [w'|] eqn:X; [|discriminate] end.
  replace (match so_ns (e_opt e) with Some _ => false | None => false end) with false in H by now destruct (so_ns (e_opt e)).
  destruct (negb (so_after (e_opt e) =? 0) && (t <? so_after (e_opt e))) eqn:A; [discriminate|]. destruct (negb (so_before (e_opt e) =? 0) && (so_before (e_opt e) <? t)) eqn:B; [discriminate|]. injection H as ->.
  unfold suggested. refine (conj _ (conj _ _)); [|intros; lia|intros; lia].
  destruct (so_ca (e_opt e)) eqn:Ca; cbn [negb andb] in X.
  - right. split; [reflexivity|]. unfold is_cert in X. destruct (k_cert (pk_key k)) as [c|] eqn:Ec; [|discriminate]. cbn [andb] in X. destruct (beqb (c_ca c) (k_pub (pk_key (e_key e)))) eqn:Eq; [|discriminate].
    apply beqb_eq in Eq. exists c. splits; auto; rewrite (filter_principals_spec _ _ c) in X by auto; destruct (check_authority (pk_key k) false true false t None) eqn:Q; try discriminate.
    + apply (authority_iff (pk_key k) ForUser true false t None) in Q as (c' & Hc' & Q). rewrite Ec in Hc'. now injection Hc' as <-.
    + destruct (flat_map _ _) as [|x l] eqn:Fm; [discriminate|]. assert (w = join 44 (x :: l)) as -> by congruence. rewrite names_join; [discriminate|]. rewrite <- Fm. apply Forall_forall. intros y Hy. apply in_flat_map in Hy as (pat & _ & Hy). apply filter_In in Hy. pose proof (PN c Ec) as P. rewrite Forall_forall in P. now apply P.
    + intros n. destruct (flat_map _ _) as [|x l] eqn:Fm; [discriminate|]. assert (w = join 44 (x :: l)) as -> by congruence. rewrite <- Fm. rewrite names_join.
      * rewrite in_flat_map. split.
        -- intros (pat & H1 & H2). apply filter_In in H2 as (H2 & H3). split; [assumption|]. exists pat. split; [assumption|]. now apply match_pattern_glob.
        -- intros (H1 & pat & H2 & H3). exists pat. split; [assumption|]. apply filter_In. split; [assumption|]. now apply match_pattern_glob.
      * apply Forall_forall. intros y Hy. apply in_flat_map in Hy as (pat & _ & Hy). apply filter_In in Hy. pose proof (PN c Ec) as P. rewrite Forall_forall in P. now apply P.
  - left. destruct (key_equal (e_key e) k) eqn:Q; [|discriminate]. injection X as <-. splits; auto. now apply key_equal_iff.
Qed.
Lemma find_line_yes : forall line k t e out, plain_names k -> says_line ptime rd line e -> suggested e k t out ->
  check_line ptime rd line k None None t <> None.
Proof.
  intros line k t e out PN Sy (Key & A & B). unfold check_line. rewrite (proj2 (parse_line_iff ptime rd line None e)); [|split; [assumption|discriminate]].
  replace (match so_ns (e_opt e) with Some _ => false | None => false end) with false by now destruct (so_ns (e_opt e)).
  replace (negb (so_after (e_opt e) =? 0) && (t <? so_after (e_opt e))) with false by (destruct (so_after (e_opt e) =? 0) eqn:X; [reflexivity|]; specialize (A ltac:(lia)); cbn [negb andb]; lia).
  replace (negb (so_before (e_opt e) =? 0) && (so_before (e_opt e) <? t)) with false by (destruct (so_before (e_opt e) =? 0) eqn:X; [reflexivity|]; specialize (B ltac:(lia)); cbn [negb andb]; lia).
  destruct Key as [(Ca & Q & _)|(Ca & c & Ec & Eq & Q & No & Hout)].
  - apply key_equal_iff in Q. rewrite Ca, Q. discriminate.
  - unfold is_cert. rewrite Ca, Ec, Eq, beqb_refl. cbn [negb andb]. rewrite (filter_principals_spec _ _ c) by auto.
    rewrite (proj2 (authority_iff (pk_key k) ForUser true false t None) (ex_intro _ c (conj Ec Q))).
    destruct out as [|n out]; [contradiction|]. destruct (proj1 (Hout n) (or_introl eq_refl)) as (H1 & p & H2 & H3).
    assert (I : In n (flat_map (fun pat => filter (fun p => match_pattern p pat) (c_principals c)) (names (e_who e)))).
    { apply in_flat_map. exists p. split; [assumption|]. apply filter_In. split; [assumption|]. now apply match_pattern_glob. }
    destruct (flat_map _ _); [destruct I|discriminate].
Qed.
Lemma find_some : forall lines k t w, plain_names k -> find_principals ptime rd lines k t = Some w ->
  exists pre line post e, lines = pre ++ line :: post /\ says_line ptime rd line e /\ suggested e k t (names w) /\
    forall l e' out, In l pre -> says_line ptime rd l e' -> ~ suggested e' k t out.
Proof.
  intros lines k t w PN. unfold find_principals. induction lines as [|l lines IH]; cbn [check_lines]; [discriminate|].
  destruct (check_line ptime rd l k None None t) as [w'|] eqn:E.
  - intros H. injection H as ->. destruct (find_line l k t w PN E) as (e & H1 & H2). exists [], l, lines, e. splits; auto; intros l' e' out [].
  - intros H. destruct (IH H) as (pre & line & post & e & -> & H1 & H2 & H3). exists (l :: pre), line, post, e. splits; auto.
    intros l' e' out [<-|Hl] S Sg; [|exact (H3 l' e' out Hl S Sg)]. exact (find_line_yes l k t e' out PN S Sg E).
Qed.
Lemma find_none : forall lines k t, plain_names k -> find_principals ptime rd lines k t = None ->
  forall line e out, In line lines -> says_line ptime rd line e -> ~ suggested e k t out.
Proof.
  intros lines k t PN. unfold find_principals. induction lines as [|l lines IH]; cbn [check_lines]; intros H line e out []; subst.
  - intros S Sg. destruct (check_line ptime rd line k None None t) eqn:E; [discriminate|]. exact (find_line_yes line k t e out PN S Sg E).
  - destruct (check_line ptime rd l k None None t); [discriminate|]. now apply IH.
Qed.
Lemma names_entries : forall l x, In x (names l) -> In x (entries l) /\ x <> [].
Proof.
  intros l x. unfold names, entries. induction (split 44 l) as [|f fs IH]; cbn [names_of]; [intros []|]. destruct f as [|c f]; [intros []|]. intros [<-|H].
  - split; [|discriminate]. destruct fs; cbn; auto.
  - destruct (IH H) as (I1 & I2). split; [|assumption]. destruct fs as [|g fs]; [destruct I1|]. change (In x ((c :: f) :: drop_last_empty (g :: fs))). now right.
Qed.
Lemma entries_chars : forall l x c, In x (entries l) -> In c x -> In c l.
Proof.
  intros l x c H Hc. assert (In x (split 44 l)).
  { unfold entries in H. revert H. induction (split 44 l) as [|f [|g fs] IH]; cbn [drop_last_empty].
    - intros []. - destruct (is_nil f); [intros []|intros [<-|[]]; now left]. - intros [<-|H]; [now left|right; now apply IH]. }
  clear H. revert x H0 Hc. induction l as [|y l IH]; intros x H0 Hc; cbn [split] in H0; [destruct H0 as [<-|[]]; destruct Hc|].
  destruct (y =? 44) eqn:E; [destruct H0 as [<-|H0]; [destruct Hc|right; now apply (IH x)]|].
  destruct (split 44 l) as [|f fs] eqn:Es; [destruct H0 as [<-|[]]; destruct Hc as [<-|[]]; now left|].
  destruct H0 as [<-|H0]; [destruct Hc as [<-|Hc]; [now left|right; apply (IH f); [now left|assumption]]|right; apply (IH x); [now right|assumption]].
Qed.
Lemma glob_self : forall p, glob p p.
Proof.
  induction p as [|c p IH]; [apply glob_end|]. destruct (Z.eq_dec c 42) as [->|N1]; [exact (glob_star p [42] p IH)|]. destruct (Z.eq_dec c 63) as [->|N2]; [now apply glob_any|now apply glob_char].
Qed.
Lemma found_allows : forall e k t out n ns, suggested e k t out -> In n out -> ~ In 33 (e_who e) -> Forall MatchSpec.fits (entries (e_who e)) ->
  (forall l, so_ns (e_opt e) = Some l -> on_list l ns) -> allows e k n ns t.
Proof.
  intros e k t out n ns (Key & A & B) Hn N33 F Hns. unfold allows.
  assert (O1 : (exists p, In p (names (e_who e)) /\ glob p n) -> on_list (e_who e) n).
  { intros (p & Hp & G). apply names_entries in Hp as (Hp & Np). unfold on_list. split; [assumption|].
    assert (Neg : forall x, In x (entries (e_who e)) -> negative x = false).
    { intros x Hx. destruct x as [|c x]; [reflexivity|]. cbn [negative]. destruct (c =? 33) eqn:E; [|reflexivity]. exfalso. apply N33. assert (c = 33) by lia. subst c. eapply entries_chars; [exact Hx|now left]. }
    split.
    - exists p. splits; auto. unfold covers, fold_case, body. now rewrite (Neg p Hp).
    - intros (x & Hx & Nx & _). rewrite (Neg x Hx) in Nx. discriminate. }
  destruct Key as [(Ca & Q & ->)|(Ca & c & Ec & Eq & Q & No & Hout)].
  - split; [apply O1; exists n; split; [assumption|apply glob_self]|]. split; [left; auto|]. splits; auto.
  - destruct (proj1 (Hout n) Hn) as (H1 & H2). split; [now apply O1|]. split; [|splits; auto]. right. split; [assumption|]. exists c. splits; auto.
    destruct Q as (Q1 & Q2 & Q3 & _). unfold in_scope. splits; auto. intros _ n' Hn'. injection Hn' as <-. exists n. auto.
Qed.
Lemma match_principals_iff : forall lines who l, match_principals ptime rd lines who = Some l ->
  forall w, In w l <-> exists line e, In line lines /\ says_line ptime rd line e /\ on_list (e_who e) who /\ w = e_who e.
Proof.
  induction lines as [|x lines IH]; intros who l H w; cbn [match_principals] in H.
  { injection H as <-. split; [intros []|intros (line & e & [] & _)]. }
  assert (P : forall e, parse_line ptime rd x (Some who) = LEntry e <-> says_line ptime rd x e /\ on_list (e_who e) who).
  { intros e. rewrite parse_line_iff. split; intros (H1 & H2); split; auto. intros p Hp. now injection Hp as <-. }
  destruct (parse_line ptime rd x (Some who)) as [| |e] eqn:E; try discriminate.
  - rewrite (IH _ _ H). split.
    + intros (line & e & I1 & R). exists line, e. split; [now right|assumption].
    + intros (line & e & [<-|I1] & R1 & R2 & R3); [|exists line, e; auto]. pose proof (proj2 (P e) (conj R1 R2)). discriminate.
  - destruct (match_principals ptime rd lines who) as [l'|] eqn:E'; [|discriminate]. injection H as <-. specialize (IH _ _ E' w). split.
    + intros [<-|I1]; [exists x, e; destruct (proj1 (P e) eq_refl); splits; auto; now left|]. apply IH in I1 as (line & e' & I1 & R). exists line, e'. split; [now right|assumption].
    + intros (line & e' & [<-|I1] & R1 & R2 & R3); [|right; apply IH; exists line, e'; auto]. pose proof (proj2 (P e') (conj R1 R2)) as Q. injection Q as <-. now left.
Qed.
End Find.

Lemma enc_split : forall a b x y, zlen a <= 134217724 -> zlen b <= 134217724 -> enc_string a ++ x = enc_string b ++ y -> a = b /\ x = y.
Proof. intros a b x y La Lb H. pose proof (get_str_enc a x La) as G. rewrite H, get_str_enc in G by assumption. injection G as -> ->. auto. Qed.
Lemma ctext_split : forall wa wb a b x y, is_bytes (wa ++ x) -> ctext wa a -> ctext wb b -> wa ++ x = wb ++ y -> a = b /\ x = y.
Proof.
  intros wa wb a b x y Hb Ca Cb E. pose proof (proj2 (get_cstr_iff _ a x Hb) (ex_intro _ wa (conj Ca eq_refl))) as G.
  pose proof (proj2 (get_cstr_iff _ b y Hb) (ex_intro _ wb (conj Cb E))) as G'. rewrite G in G'. injection G' as -> ->. auto.
Qed.
Lemma object_unique : forall w v kb ns rsv alg sg v' kb' ns' rsv' alg' sg', is_bytes w -> is_object w v kb ns rsv alg sg -> is_object w v' kb' ns' rsv' alg' sg' ->
  kb = kb' /\ ns = ns' /\ alg = alg' /\ sg = sg'.
Proof.
  intros w v kb ns rsv alg sg v' kb' ns' rsv' alg' sg' Hb (wns & walg & E & V & C1 & C2 & L1 & L2 & L3) (wns' & walg' & E' & V' & C1' & C2' & L1' & L2' & L3').
  assert (P : parse_preamble w = Some (enc_string kb ++ wns ++ enc_string rsv ++ walg ++ enc_string sg)) by (apply preamble_iff; [assumption|]; exists v; auto).
  assert (P' : parse_preamble w = Some (enc_string kb' ++ wns' ++ enc_string rsv' ++ walg' ++ enc_string sg')) by (apply preamble_iff; [assumption|]; exists v'; auto).
  rewrite P in P'. assert (Q : enc_string kb ++ wns ++ enc_string rsv ++ walg ++ enc_string sg = enc_string kb' ++ wns' ++ enc_string rsv' ++ walg' ++ enc_string sg') by congruence. clear P P'.
  rewrite E in Hb. apply bytes_app in Hb as (_ & Hb). apply bytes_app in Hb as (_ & Hb). clear E E'.
  apply bytes_app in Hb as (_ & Hb). apply enc_split in Q as (-> & Q); auto. apply ctext_split with (a := ns) (b := ns') in Q as (-> & Q); auto. apply bytes_app in Hb as (_ & Hb).
  apply bytes_app in Hb as (_ & Hb). apply enc_split in Q as (-> & Q); auto. apply ctext_split with (a := alg) (b := alg') in Q as (-> & Q); auto.
  rewrite <- (app_nil_r (enc_string sg)), <- (app_nil_r (enc_string sg')) in Q. apply enc_split in Q as (-> & _); auto.
Qed.
Lemma signed_inj : forall ns alg h ns' alg' h', zlen ns <= 134217724 -> zlen alg <= 134217724 -> zlen h <= 134217724 -> zlen ns' <= 134217724 -> zlen alg' <= 134217724 -> zlen h' <= 134217724 ->
  signed_data ns alg h = signed_data ns' alg' h' -> ns = ns' /\ alg = alg' /\ h = h'.
Proof.
  intros ns alg h ns' alg' h' L1 L2 L3 L1' L2' L3' E. unfold signed_data in E. apply app_inv_head in E.
  apply enc_split in E as (-> & E); auto. apply app_inv_head in E. apply enc_split in E as (-> & E); auto. rewrite <- (app_nil_r (enc_string h)), <- (app_nil_r (enc_string h')) in E. apply enc_split in E as (-> & _); auto.
Qed.
Lemma not_string : forall ns alg h s r, zlen s < 1392508928 -> signed_data ns alg h <> enc_string s ++ r.
Proof.
  intros ns alg h s r L E. unfold signed_data, enc_string in E. rewrite <- app_assoc in E. apply (f_equal (fun l => nth 0 l 0)) in E.
  change (nth 0 (bs "SSHSIG" ++ _) 0) with 83 in E. pose proof (zlen_nonneg _ s).
  assert (X : nth 0 ((be_enc 4 (zlen s) ++ s) ++ r) 0 = (zlen s / 256 / 256 / 256) mod 256) by reflexivity.
  rewrite X in E. Z.to_euclidean_division_equations; lia.
Qed.
