(** Proofs about reading known-hosts files. *)
From Coq Require Import String.
From Verif Require Import Base Text SshbufModel AuthOptModel MatchModel MatchSpec MatchProof Base64Model Base64Spec Base64Proof AuthOptProof KrlProof5 HostfileModel HostfileSpec.

(** ** Characters *)
Lemma wsp_iff : forall c, wsp c = true <-> blank c.
Proof. intros c. unfold wsp, blank. lia. Qed.
Lemma wsp_niff : forall c, wsp c = false <-> ~ blank c.
Proof. intros c. unfold wsp, blank. lia. Qed.

Lemma drop_ws_app : forall w s, blanks w -> drop_ws (w ++ s) = drop_ws s.
Proof. intros w s H. induction H as [|c w A B IH]; [reflexivity|]. cbn [app drop_ws]. apply wsp_iff in A. rewrite A. exact IH. Qed.
Lemma drop_ws_head : forall c s, ~ blank c -> drop_ws (c :: s) = c :: s.
Proof. intros c s H. cbn [drop_ws]. apply wsp_niff in H. rewrite H. reflexivity. Qed.
Lemma drop_ws_split : forall s, exists w, s = w ++ drop_ws s /\ blanks w.
Proof.
  induction s as [|c s (w & E & B)]; [exists []; split; [reflexivity|constructor]|]. cbn [drop_ws]. destruct (wsp c) eqn:E1.
  - exists (c :: w). cbn [app]. rewrite <- E. split; [reflexivity|]. constructor; [apply wsp_iff; exact E1|exact B].
  - exists []. split; [reflexivity|constructor].
Qed.
Lemma drop_ws_nonblank : forall s c r, drop_ws s = c :: r -> ~ blank c.
Proof.
  induction s as [|x s IH]; intros c r H; cbn [drop_ws] in H; [discriminate|]. destruct (wsp x) eqn:E; [eapply IH; exact H|].
  injection H as <- <-. apply wsp_niff. exact E.
Qed.
Lemma till_ws_split : forall s, s = fst (till_ws s) ++ snd (till_ws s) /\ Forall (fun c => ~ blank c) (fst (till_ws s)) /\
  (snd (till_ws s) = [] \/ blank (hd 0 (snd (till_ws s)))).
Proof.
  induction s as [|c s (E & F & D)]; [cbn; auto|]. cbn [till_ws]. destruct (wsp c) eqn:W.
  - cbn [fst snd app hd]. splits; auto. right. apply wsp_iff. exact W.
  - destruct (till_ws s) as [a b] eqn:T. cbn [fst snd app] in *. rewrite <- E. splits; auto. constructor; auto. apply wsp_niff. exact W.
Qed.
Lemma till_ws_app : forall a b, Forall (fun c => ~ blank c) a -> (b = [] \/ blank (hd 0 b)) -> till_ws (a ++ b) = (a, b).
Proof.
  intros a b H D. induction H as [|c a A B IH].
  - cbn [app]. destruct b as [|x b]; [reflexivity|]. cbn [till_ws]. destruct D as [D|D]; [discriminate|]. cbn [hd] in D. apply wsp_iff in D. rewrite D. reflexivity.
  - cbn [app till_ws]. apply wsp_niff in A. rewrite A, IH. reflexivity.
Qed.

(** ** Memory holding a string followed by NUL *)
Lemma skip_ws_mem : forall s Y, skip_ws (s ++ 0 :: Y) = Some (drop_ws s ++ 0 :: Y).
Proof. induction s as [|c s IH]; intros Y; [reflexivity|]. cbn [app skip_ws drop_ws]. destruct (wsp c); [apply IH|reflexivity]. Qed.
Lemma cstring_mem : forall s Y, ~ In 0 s -> cstring (s ++ 0 :: Y) = Some s.
Proof.
  induction s as [|c s IH]; intros Y H; [reflexivity|]. cbn [app cstring]. destruct (c =? 0) eqn:E; [exfalso; apply H; left; lia|].
  rewrite IH; [reflexivity|]. intros X. apply H. right. exact X.
Qed.
Lemma word_mem : forall s Y, ~ In 0 s -> word (s ++ 0 :: Y) = Some (fst (till_ws s), snd (till_ws s) ++ 0 :: Y).
Proof.
  induction s as [|c s IH]; intros Y H; [reflexivity|]. cbn [app word till_ws]. destruct (c =? 0) eqn:E; [exfalso; apply H; left; lia|].
  cbn [orb]. destruct (wsp c); [reflexivity|]. rewrite IH by (intros X; apply H; right; exact X). destruct (till_ws s). reflexivity.
Qed.
(** strchr on a list: what stands before the character and from it on *)
Fixpoint find_char (c : Z) (s : list Z) : option (list Z * list Z) :=
  match s with [] => None | x :: r => if x =? c then Some ([], s) else match find_char c r with Some (a, q) => Some (x :: a, q) | None => None end end.
Lemma strchr_mem : forall c s Y, ~ In 0 s -> c <> 0 ->
  strchr c (s ++ 0 :: Y) = Some (match find_char c s with Some (a, q) => Some (a, q ++ 0 :: Y) | None => None end).
Proof.
  intros c s Y H Hc. induction s as [|x s IH].
  - cbn [app strchr find_char]. replace (0 =? c) with false by lia. reflexivity.
  - cbn [app strchr find_char]. destruct (x =? c); [reflexivity|]. destruct (x =? 0) eqn:E; [exfalso; apply H; left; lia|].
    rewrite IH by (intros X; apply H; right; exact X). destruct (find_char c s) as [[a q]|]; reflexivity.
Qed.
Lemma find_char_some : forall c s a q, find_char c s = Some (a, q) -> s = a ++ q /\ ~ In c a /\ exists r, q = c :: r.
Proof.
  induction s as [|x s IH]; intros a q H; cbn [find_char] in H; [discriminate|]. destruct (x =? c) eqn:E.
  - injection H as <- <-. splits; auto. exists s. f_equal. lia.
  - destruct (find_char c s) as [[a' q']|]; [|discriminate]. injection H as <- <-. destruct (IH a' q' eq_refl) as (-> & N & r & ->).
    splits; eauto. intros [X|X]; [lia|auto].
Qed.
Lemma find_char_at : forall c a r, ~ In c a -> find_char c (a ++ c :: r) = Some (a, c :: r).
Proof.
  induction a as [|x a IH]; intros r H; cbn [app find_char].
  - rewrite Z.eqb_refl. reflexivity.
  - destruct (x =? c) eqn:E; [exfalso; apply H; left; lia|]. rewrite IH; [reflexivity|]. intros X. apply H. right. exact X.
Qed.
Lemma find_char_none : forall c s, ~ In c s -> find_char c s = None.
Proof.
  induction s as [|x s IH]; intros H; cbn [find_char]; [reflexivity|]. destruct (x =? c) eqn:E; [exfalso; apply H; left; lia|].
  rewrite IH; [reflexivity|]. intros X. apply H. right. exact X.
Qed.
Lemma find_char_in : forall c s, In c s -> exists a q, find_char c s = Some (a, q).
Proof.
  induction s as [|x s IH]; intros H; [destruct H|]. cbn [find_char]. destruct (x =? c) eqn:E; [eauto|].
  destruct H as [H|H]; [lia|]. destruct (IH H) as (a & q & ->). eauto.
Qed.

(** ** Lines without memory *)
Definition pure_marker (cp : list Z) : option (marker * list Z) :=
  match (match find_char 32 cp with Some x => Some x | None => find_char 9 cp end) with
  | None => None
  | Some (m, q) =>
      if (zlen m <=? 1) || (32 <=? zlen m) then None else
      if beqb m CA_MARKER then Some (MRK_CA, drop_ws q) else
      if beqb m REVOKE_MARKER then Some (MRK_REVOKE, drop_ws q) else None
  end.
Definition pure_markers (cp : list Z) : option (marker * list Z) :=
  if at_sign cp then
    match pure_marker cp with
    | None => None
    | Some (m, q) => if at_sign q then None else Some (m, q)
    end
  else Some (MRK_NONE, cp).
Lemma drop_ws_incl : forall s c, In c (drop_ws s) -> In c s.
Proof. intros s c H. destruct (drop_ws_split s) as (w & E & _). rewrite E. apply in_or_app. right. exact H. Qed.
Lemma find_char_incl : forall c s a q x, find_char c s = Some (a, q) -> In x q -> In x s.
Proof. intros c s a q x H Hx. apply find_char_some in H. destruct H as (-> & _). apply in_or_app. right. exact Hx. Qed.
Lemma markers_mem : forall cp Y, ~ In 0 cp -> check_markers (cp ++ 0 :: Y) =
  match pure_markers cp with
  | None => Some (MRK_ERROR, cp ++ 0 :: Y)
  | Some (m, q) => Some (m, q ++ 0 :: Y)
  end.
Proof.
  intros cp Y H. unfold check_markers, pure_markers.
  assert (A : forall s, at_sign (s ++ 0 :: Y) = at_sign s) by (intros [|? ?]; reflexivity).
  rewrite A. destruct (at_sign cp); [|reflexivity].
  unfold one_marker, pure_marker. rewrite !strchr_mem by (assumption || lia).
  assert (G : forall (m q : list Z), skip_ws (q ++ 0 :: Y) = Some (drop_ws q ++ 0 :: Y)) by (intros; apply skip_ws_mem).
  destruct (find_char 32 cp) as [[m q]|]; [|destruct (find_char 9 cp) as [[m q]|]; [|reflexivity]];
  (destruct ((zlen m <=? 1) || (32 <=? zlen m)); [reflexivity|]; cbv zeta; rewrite (G m q);
   destruct (beqb m CA_MARKER); [cbv iota; rewrite A; destruct (at_sign (drop_ws q)); reflexivity|];
   destruct (beqb m REVOKE_MARKER); [cbv iota; rewrite A; destruct (at_sign (drop_ws q)); reflexivity|reflexivity]).
Qed.
Lemma pure_markers_incl : forall cp m q c, pure_markers cp = Some (m, q) -> In c q -> In c cp.
Proof.
  intros cp m q c H Hc. unfold pure_markers, pure_marker in H. destruct (at_sign cp); [|injection H as <- <-; exact Hc].
  destruct (match find_char 32 cp with Some x => Some x | None => find_char 9 cp end) as [[m' q']|] eqn:F; [|discriminate].
  assert (I : In c q' -> In c cp).
  { intros X. destruct (find_char 32 cp) as [[? ?]|] eqn:F1.
    - injection F as -> ->. eapply find_char_incl; eassumption.
    - eapply find_char_incl; eassumption. }
  destruct ((zlen m' <=? 1) || (32 <=? zlen m')); [discriminate|].
  destruct (beqb m' CA_MARKER); [|destruct (beqb m' REVOKE_MARKER); [|discriminate]];
  (destruct (at_sign (drop_ws q')); [discriminate|]; injection H as <- <-; apply I, drop_ws_incl; exact Hc).
Qed.

(** What the callback is told about a text line; None: it is not called. *)
Definition pure_line (P : hprims) (host : list Z) (ip : option (list Z)) (wm : bool) (line : list Z) : option line_info :=
  let cp := drop_ws line in
  if match cp with [] => true | c :: _ => c =? 35 end then
    (if wm then None else Some (mkLI line HKF_COMMENT false false MRK_NONE None)) else
  match pure_markers cp with
  | None => if wm then None else Some (mkLI line HKF_INVALID false false MRK_ERROR None)
  | Some (mk, cp1) =>
      let '(hosts, r) := till_ws cp1 in
      match match_maybe_hashed P host hosts with
      | None => Some (mkLI line HKF_INVALID false false mk None)
      | Some mh =>
          match (match ip with None => Some false | Some a => match_maybe_hashed P a hosts end) with
          | None => Some (mkLI line HKF_INVALID mh false mk None)
          | Some mi =>
              if wm && negb (mh || mi) then None else
              let q := drop_ws (tl r) in
              if match q with [] => true | d :: _ => d =? 35 end then Some (mkLI line HKF_INVALID mh mi mk None) else
              match sshkey_read P q with
              | None => Some (mkLI line HKF_INVALID mh mi mk None)
              | Some k => Some (mkLI line (if mh || mi then HKF_MATCHED else HKF_OK) mh mi mk (Some k))
              end
          end
      end
  end.
Lemma pure_markers_ok : forall cp m q, pure_markers cp = Some (m, q) -> m <> MRK_ERROR.
Proof.
  intros cp m q H. unfold pure_markers, pure_marker in H. destruct (at_sign cp); [|injection H as <- <-; discriminate].
  destruct (match find_char 32 cp with Some x => Some x | None => find_char 9 cp end) as [[m' q']|]; [|discriminate].
  destruct ((zlen m' <=? 1) || (32 <=? zlen m')); [discriminate|].
  destruct (beqb m' CA_MARKER); [|destruct (beqb m' REVOKE_MARKER); [|discriminate]];
  (destruct (at_sign (drop_ws q')); [discriminate|]; injection H as <- <-; discriminate).
Qed.
Lemma line_mem : forall P host ip wm line X, ~ In 0 line -> ~ In 10 line -> exists mem',
  foreach_line P host ip wm (line ++ 0 :: 0 :: X) =
  (match pure_line P host ip wm line with None => LSkip | Some i => LCall i end, mem').
Proof.
  intros P host ip wm line X H H10. unfold foreach_line, pure_line. rewrite cstring_mem by assumption. rewrite skip_ws_mem.
  assert (H1 : ~ In 0 (drop_ws line)) by (intros Y; apply H, drop_ws_incl, Y).
  assert (H11 : ~ In 10 (drop_ws line)) by (intros Y; apply H10, drop_ws_incl, Y).
  set (cp := drop_ws line) in *. pose proof (markers_mem cp (0 :: X) H1) as MM.
  destruct cp as [|c cp'] eqn:Ecp.
  { cbn [app]. change (0 =? 0) with true. cbv iota. destruct wm; eexists; reflexivity. }
  cbn [app]. cbn [app] in MM. assert (C0 : c <> 0) by (intros ->; apply H1; left; reflexivity). assert (C10 : c <> 10) by (intros ->; apply H11; left; reflexivity).
  replace (c =? 0) with false by lia. replace (c =? 10) with false by lia. rewrite orb_false_r. cbn [orb].
  destruct (c =? 35). { destruct wm; eexists; reflexivity. }
  rewrite MM. destruct (pure_markers (c :: cp')) as [[mk cp1]|] eqn:EM; [|destruct wm; eexists; reflexivity].
  pose proof (pure_markers_ok _ _ _ EM) as NE.
  assert (H2 : ~ In 0 cp1) by (intros Y; apply H1; eapply pure_markers_incl; eassumption).
  assert (R : exists mem', match word (cp1 ++ 0 :: 0 :: X) with
            | None => (LUb, line ++ 0 :: 0 :: X)
            | Some (hosts, cp2) =>
                let mem' := poke (line ++ 0 :: 0 :: X) cp2 in
                match match_maybe_hashed P host hosts with
                | None => (LCall (mkLI line HKF_INVALID false false mk None), mem')
                | Some mh =>
                    match (match ip with None => Some false | Some a => match_maybe_hashed P a hosts end) with
                    | None => (LCall (mkLI line HKF_INVALID mh false mk None), mem')
                    | Some mi =>
                        let st := if mh || mi then HKF_MATCHED else HKF_OK in
                        if wm && negb (mh || mi) then (LSkip, mem') else
                        match skip_ws (tl cp2) with
                        | None => (LUb, mem')
                        | Some q =>
                            match q with
                            | [] => (LUb, mem')
                            | d :: _ =>
                                if (d =? 0) || (d =? 35) then (LCall (mkLI line HKF_INVALID mh mi mk None), mem') else
                                match cstring q with
                                | None => (LUb, mem')
                                | Some text =>
                                    match sshkey_read P text with
                                    | None => (LCall (mkLI line HKF_INVALID mh mi mk None), mem')
                                    | Some k => (LCall (mkLI line st mh mi mk (Some k)), mem')
                                    end
                                end
                            end
                        end
                    end
                end
            end = (match (let '(hosts, r) := till_ws cp1 in
      match match_maybe_hashed P host hosts with
      | None => Some (mkLI line HKF_INVALID false false mk None)
      | Some mh =>
          match (match ip with None => Some false | Some a => match_maybe_hashed P a hosts end) with
          | None => Some (mkLI line HKF_INVALID mh false mk None)
          | Some mi =>
              if wm && negb (mh || mi) then None else
              let q := drop_ws (tl r) in
              if match q with [] => true | d :: _ => d =? 35 end then Some (mkLI line HKF_INVALID mh mi mk None) else
              match sshkey_read P q with
              | None => Some (mkLI line HKF_INVALID mh mi mk None)
              | Some k => Some (mkLI line (if mh || mi then HKF_MATCHED else HKF_OK) mh mi mk (Some k))
              end
          end
      end) with None => LSkip | Some i => LCall i end, mem')).
  { rewrite word_mem by assumption. destruct (till_ws_split cp1) as (Es & _ & _). destruct (till_ws cp1) as [hosts r] eqn:Et. cbn [fst snd] in *. cbv zeta.
    destruct (match_maybe_hashed P host hosts) as [mh|]; [|eexists; reflexivity].
    destruct (match ip with None => Some false | Some a => match_maybe_hashed P a hosts end) as [mi|]; [|eexists; reflexivity].
    destruct (wm && negb (mh || mi)); [eexists; reflexivity|].
    destruct r as [|x r].
    { cbn [app tl]. cbn [skip_ws]. change (wsp 0) with false. cbv iota. change (0 =? 0) with true. cbn [orb]. cbn [drop_ws]. eexists. reflexivity. }
    cbn [app tl]. rewrite skip_ws_mem.
    assert (H3 : ~ In 0 (drop_ws r)). { intros Y. apply H2. rewrite Es. apply in_or_app. right. right. apply drop_ws_incl. exact Y. }
    pose proof (cstring_mem (drop_ws r) (0 :: X) H3) as CM. destruct (drop_ws r) as [|d q] eqn:Eq.
    { cbn [app]. change (0 =? 0) with true. cbn [orb]. eexists. reflexivity. }
    cbn [app]. cbn [app] in CM. assert (D0 : d <> 0) by (intros ->; apply H3; left; reflexivity). replace (d =? 0) with false by lia. cbn [orb].
    destruct (d =? 35); [eexists; reflexivity|]. rewrite CM. destruct (sshkey_read P (d :: q)); eexists; reflexivity. }
  destruct mk; [congruence| | |]; exact R.
Qed.

(** ** Text files *)
Lemma getlines_line : forall l r cur, ~ In 10 l -> getlines (l ++ 10 :: r) cur = (rev cur ++ l, true) :: getlines r [].
Proof.
  induction l as [|c l IH]; intros r cur H.
  - cbn [app getlines]. change (10 =? 10) with true. cbv iota. rewrite app_nil_r. reflexivity.
  - cbn [app getlines]. destruct (c =? 10) eqn:E; [exfalso; apply H; left; lia|]. rewrite IH by (intros X; apply H; right; exact X).
    cbn [rev]. rewrite <- app_assoc. reflexivity.
Qed.
Lemma getlines_text : forall ls, Forall (fun l => ~ In 10 l) ls -> getlines (text ls) [] = map (fun l => (l, true)) ls.
Proof.
  intros ls H. induction H as [|l ls A B IH]; [reflexivity|]. unfold text. cbn [flat_map map]. rewrite <- app_assoc. cbn [app].
  rewrite getlines_line by assumption. fold (text ls). rewrite IH. reflexivity.
Qed.
Lemma cut_nl_line : forall l r, ~ In 10 l -> ~ In 0 l -> cut_nl (l ++ 10 :: r) = l ++ 0 :: r.
Proof.
  induction l as [|c l IH]; intros r H H0; [reflexivity|]. cbn [app cut_nl].
  destruct (c =? 10) eqn:E; [exfalso; apply H; left; lia|]. destruct (c =? 0) eqn:E0; [exfalso; apply H0; left; lia|].
  rewrite IH; [reflexivity| |]; intros X; [apply H|apply H0]; right; exact X.
Qed.
Definition opt_list {A} (o : option A) : list A := match o with Some x => [x] | None => [] end.
Lemma foreach_text : forall P host ip wm ls, Forall text_line ls -> forall mem junk,
  foreach_go P host ip wm (map (fun l => (l, true)) ls) mem junk = Some (flat_map (fun l => opt_list (pure_line P host ip wm l)) ls).
Proof.
  intros P host ip wm ls H. induction H as [|l ls A B IH]; intros mem junk; [reflexivity|]. cbn [map foreach_go flat_map].
  destruct A as (A1 & A2 & _). unfold getline_mem. rewrite <- app_assoc. cbn [app]. rewrite cut_nl_line by assumption.
  destruct (line_mem P host ip wm l (zdrop (zlen (l ++ [10]) + 1) mem ++ hd [] junk) A2 A1) as [mem' E]. rewrite E.
  destruct (pure_line P host ip wm l) as [i|]; cbn [opt_list app]; rewrite IH; reflexivity.
Qed.
Lemma hostkeys_text : forall P host ip wm ls junk, Forall text_line ls ->
  hostkeys_foreach P host ip wm (text ls) junk = Some (flat_map (fun l => opt_list (pure_line P host ip wm l)) ls).
Proof.
  intros P host ip wm ls junk H. unfold hostkeys_foreach. rewrite getlines_text; [apply foreach_text; exact H|].
  apply Forall_impl with (2 := H). intros l (A & _). exact A.
Qed.

(** ** The parts of a line *)
Definition parts (line : list Z) : option (marker * list Z * list Z) :=
  let cp := drop_ws line in
  if match cp with [] => true | c :: _ => c =? 35 end then None else
  match pure_markers cp with
  | None => None
  | Some (mk, cp1) =>
      let '(hosts, r) := till_ws cp1 in
      let q := drop_ws (tl r) in
      if match q with [] => true | d :: _ => d =? 35 end then None else Some (mk, hosts, q)
  end.
Lemma hd_solid : forall h, solid h -> exists c r, h = c :: r /\ ~ blank c.
Proof. intros [|c r] [A B]; [congruence|]. inversion B; subst. eauto. Qed.
Lemma mtext_sp : forall m, ~ In 32 (marker_text m) /\ ~ In 9 (marker_text m).
Proof. intros []; split; cbn; intuition discriminate. Qed.

Lemma mtext_head : forall m X Y, m = MRK_CA \/ m = MRK_REVOKE ->
  drop_ws ((marker_text m ++ X) ++ Y) = (marker_text m ++ X) ++ Y /\
  (match (marker_text m ++ X) ++ Y with [] => true | c :: _ => c =? 35 end) = false.
Proof. intros m X Y [-> | ->]; split; reflexivity. Qed.
Lemma parts_complete : forall line m hosts rest, entry_line line m hosts rest -> parts line = Some (m, hosts, rest).
Proof.
  intros line m hosts rest (w1 & lead & w2 & E & B1 & L & Hs & H64 & B2 & N2 & Nr & Br & Hr).
  destruct (hd_solid _ Hs) as (h0 & h' & Eh & Bh). destruct Hs as [_ Hs].
  destruct rest as [|r0 r']; [congruence|]. cbn [hd] in Br, Hr.
  destruct w2 as [|b w2']; [congruence|]. inversion B2 as [|? ? Bb B2']; subst b. subst.
  assert (TAIL : till_ws ((h0 :: h') ++ (x :: w2') ++ r0 :: r') = (h0 :: h', (x :: w2') ++ r0 :: r')).
  { apply till_ws_app; [exact Hs|]. right. exact Bb. }
  assert (Q : drop_ws (tl ((x :: w2') ++ r0 :: r')) = r0 :: r'). { cbn [app tl]. rewrite drop_ws_app by assumption. apply drop_ws_head. exact Br. }
  unfold parts. rewrite drop_ws_app by assumption. cbn [hd] in H64.
  assert (HM : forall sep w line0, blank sep -> blanks w -> m = MRK_CA \/ m = MRK_REVOKE -> (sep = 32 \/ ~ In 32 line0) -> 
     line0 = (marker_text m ++ sep :: w) ++ (h0 :: h') ++ (x :: w2') ++ r0 :: r' ->
     pure_markers ((marker_text m ++ sep :: w) ++ (h0 :: h') ++ (x :: w2') ++ r0 :: r') = Some (m, (h0 :: h') ++ (x :: w2') ++ r0 :: r')).
  { intros sep w line0 S1 S2 Hm S3 E0. unfold pure_markers. assert (at_sign ((marker_text m ++ sep :: w) ++ (h0 :: h') ++ (x :: w2') ++ r0 :: r') = true) as -> by (destruct Hm as [-> | ->]; reflexivity).
    unfold pure_marker. destruct (mtext_sp m) as [M32 M9]. rewrite <- app_assoc. cbn [app].
    assert (F : (match find_char 32 (marker_text m ++ sep :: w ++ h0 :: h' ++ x :: w2' ++ r0 :: r') with Some y => Some y | None => find_char 9 (marker_text m ++ sep :: w ++ h0 :: h' ++ x :: w2' ++ r0 :: r') end)
               = Some (marker_text m, sep :: w ++ h0 :: h' ++ x :: w2' ++ r0 :: r')).
    { destruct S3 as [-> | S3].
      - rewrite find_char_at by assumption. reflexivity.
      - destruct S1 as [-> | ->]; [rewrite find_char_at by assumption; reflexivity|].
        rewrite find_char_none. { rewrite find_char_at by assumption. reflexivity. }
        intros X. apply S3. subst line0. rewrite <- app_assoc. cbn [app]. exact X. }
    rewrite F. assert (DW : drop_ws (sep :: w ++ h0 :: h' ++ x :: w2' ++ r0 :: r') = h0 :: h' ++ x :: w2' ++ r0 :: r').
    { change (sep :: w ++ h0 :: h' ++ x :: w2' ++ r0 :: r') with ((sep :: w) ++ h0 :: h' ++ x :: w2' ++ r0 :: r'). rewrite drop_ws_app by (constructor; assumption). apply drop_ws_head. exact Bh. }
    destruct Hm as [-> | ->].
    - change ((zlen (marker_text MRK_CA) <=? 1) || (32 <=? zlen (marker_text MRK_CA))) with false. change (beqb (marker_text MRK_CA) CA_MARKER) with true.
      cbv iota. rewrite DW. cbn [at_sign]. replace (h0 =? 64) with false by lia. reflexivity.
    - change ((zlen (marker_text MRK_REVOKE) <=? 1) || (32 <=? zlen (marker_text MRK_REVOKE))) with false. change (beqb (marker_text MRK_REVOKE) CA_MARKER) with false.
      change (beqb (marker_text MRK_REVOKE) REVOKE_MARKER) with true.
      cbv iota. rewrite DW. cbn [at_sign]. replace (h0 =? 64) with false by lia. reflexivity. }
  destruct m; cbn [lead_ok] in L.
  - destruct L.
  - destruct L as [-> L]. cbn [app hd] in L |- *. rewrite drop_ws_head by assumption. replace (h0 =? 35) with false by lia. cbv iota.
    unfold pure_markers. cbn [at_sign]. replace (h0 =? 64) with false by lia. cbn [app] in TAIL. rewrite TAIL.
    cbn [app] in Q. cbv zeta. rewrite Q. replace (r0 =? 35) with false by lia. reflexivity.
  - destruct L as (sep & w & -> & S1 & S2 & S3). destruct (mtext_head MRK_REVOKE (sep :: w) ((h0 :: h') ++ (x :: w2') ++ r0 :: r')) as [D1 D2]; [auto|].
    rewrite D1, D2. rewrite (HM sep w _ S1 S2 (or_intror eq_refl) S3 eq_refl). rewrite TAIL. cbv zeta. rewrite Q. replace (r0 =? 35) with false by lia. reflexivity.
  - destruct L as (sep & w & -> & S1 & S2 & S3). destruct (mtext_head MRK_CA (sep :: w) ((h0 :: h') ++ (x :: w2') ++ r0 :: r')) as [D1 D2]; [auto|].
    rewrite D1, D2. rewrite (HM sep w _ S1 S2 (or_introl eq_refl) S3 eq_refl). rewrite TAIL. cbv zeta. rewrite Q. replace (r0 =? 35) with false by lia. reflexivity.
Qed.

Lemma parts_sound : forall line m hosts rest, parts line = Some (m, hosts, rest) -> entry_line line m hosts rest.
Proof.
  intros line m hosts rest H. unfold parts in H. destruct (drop_ws_split line) as (w1 & E1 & B1).
  set (cp := drop_ws line) in *. destruct (match cp with [] => true | c :: _ => c =? 35 end) eqn:Hc; [discriminate|].
  destruct (pure_markers cp) as [[mk cp1]|] eqn:EM; [|discriminate].
  destruct (till_ws_split cp1) as (E2 & F2 & D2). destruct (till_ws cp1) as [h r]. cbn [fst snd] in *. cbv zeta in H.
  destruct (drop_ws_split (tl r)) as (w3 & E3 & B3). destruct (drop_ws (tl r)) as [|q0 q] eqn:Eq; [discriminate|].
  destruct (q0 =? 35) eqn:Q35; [discriminate|]. injection H as -> <- <-.
  pose proof (drop_ws_nonblank _ _ _ Eq) as Bq.
  destruct r as [|s r]; [discriminate Eq|]. destruct D2 as [D2|D2]; [discriminate|]. cbn [hd tl] in *.
  assert (SPL : forall lead, cp = lead ++ cp1 -> lead_ok m lead h cp -> h <> [] -> hd 0 h <> 64 -> entry_line line m h (q0 :: q)).
  { intros lead EL LO Nh H64. exists w1, lead, (s :: w3). splits; auto.
    - rewrite E1, EL, E2, E3. cbn [app]. rewrite <- ?app_assoc. cbn [app]. rewrite <- ?app_assoc. reflexivity.
    - replace (lead ++ h ++ (s :: w3) ++ q0 :: q) with cp; [exact LO|]. rewrite EL, E2, E3. cbn [app]. reflexivity.
    - split; assumption.
    - constructor; assumption.
    - discriminate.
    - discriminate.
    - cbn [hd]. lia. }
  assert (HB : forall c t, cp1 = c :: t -> ~ blank c -> h <> [] /\ hd 0 h = c).
  { intros c t Ec Bc. destruct h as [|h0 h']; cbn [app] in E2; [|split; [discriminate|cbn [hd]; congruence]].
    rewrite Ec in E2. injection E2 as -> _. contradiction. }
  unfold pure_markers in EM. destruct (at_sign cp) eqn:AS.
  - unfold pure_marker in EM.
    destruct (match find_char 32 cp with Some x => Some x | None => find_char 9 cp end) as [[mt mq]|] eqn:F; [|discriminate].
    assert (MS : exists sep t, cp = mt ++ sep :: t /\ mq = sep :: t /\ blank sep /\ (sep = 32 \/ ~ In 32 cp)).
    { destruct (find_char 32 cp) as [[a b]|] eqn:F1.
      - injection F as -> ->. apply find_char_some in F1. destruct F1 as (-> & _ & t & ->). exists 32, t. unfold blank. auto.
      - apply find_char_some in F. destruct F as (Ec & _ & t & Et). exists 9, t. rewrite Et in Ec. splits; auto; [right; reflexivity|]. right. intros X.
        apply find_char_in in X. destruct X as (a & b & X). congruence. }
    destruct MS as (sep & t & Ec & -> & Bs & S32).
    destruct ((zlen mt <=? 1) || (32 <=? zlen mt)); [discriminate|].
    assert (MK : (m = MRK_CA \/ m = MRK_REVOKE) /\ mt = marker_text m /\ cp1 = drop_ws (sep :: t) /\ at_sign cp1 = false).
    { destruct (beqb mt CA_MARKER) eqn:BC.
      - destruct (at_sign (drop_ws (sep :: t))) eqn:A2; [discriminate|]. injection EM as <- <-. apply beqb_eq in BC. auto.
      - destruct (beqb mt REVOKE_MARKER) eqn:BR; [|discriminate]. destruct (at_sign (drop_ws (sep :: t))) eqn:A2; [discriminate|]. injection EM as <- <-. apply beqb_eq in BR. auto. }
    destruct MK as (Hm & Emt & Ecp1 & A2). subst mt.
    assert (DW : drop_ws (sep :: t) = drop_ws t) by (cbn [drop_ws]; apply wsp_iff in Bs; rewrite Bs; reflexivity).
    destruct (drop_ws_split t) as (w & Et & Bw). rewrite DW in Ecp1. rewrite <- Ecp1 in Et.
    destruct cp1 as [|c1 t1] eqn:Ecp. { exfalso. destruct h; discriminate E2. }
    assert (Bc1 : ~ blank c1) by (eapply drop_ws_nonblank; symmetry; exact Ecp1).
    destruct (HB c1 t1 eq_refl Bc1) as [Nh Hh]. cbn [at_sign] in A2.
    apply SPL with (lead := marker_text m ++ sep :: w); auto.
    + rewrite Ec, Et, <- app_assoc. reflexivity.
    + assert (X : exists sep0 w0, marker_text m ++ sep :: w = marker_text m ++ sep0 :: w0 /\ blank sep0 /\ blanks w0 /\ (sep0 = 32 \/ ~ In 32 cp)).
      { exists sep, w. splits; auto. }
      destruct Hm as [-> | ->]; exact X.
    + rewrite Hh. lia.
  - injection EM as <- <-. destruct cp as [|c0 t0] eqn:Ecp; [discriminate Hc|].
    assert (Bc0 : ~ blank c0) by (eapply drop_ws_nonblank; exact Ecp).
    destruct (HB c0 t0 eq_refl Bc0) as [Nh Hh]. cbn [at_sign] in AS.
    apply SPL with (lead := []); auto; [|lia]. cbn [lead_ok]. split; [reflexivity|lia].
Qed.
