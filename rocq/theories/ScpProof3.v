(** Proofs about the scp receiver: a copy of what the sender sends. *)
From Coq Require Import String.
From Verif Require Import Base Text AddrModel MiscNumModel MiscNumSpec MiscNumProof ScpModel ScpSpec ScpProof ScpProof2.
Local Open Scope Z_scope.

(** ** The lines sent are read back *)
Lemma lld_spec : forall f n, 0 <= n < 10 ^ Z.of_nat f -> (0 < f)%nat ->
  Forall (fun c => isdigit c = true) (dec_digits f n) /\ dec_digits f n <> [] /\ dval (dec_digits f n) = n /\ (length (dec_digits f n) <= f)%nat.
Proof.
  induction f as [|f IH]; intros n H Hf; [lia|]. cbn [dec_digits]. destruct (n <? 10) eqn:E.
  - splits; [constructor; [apply isdigit_spec; lia|constructor]|discriminate|unfold dval; cbn [fold_left]; lia|cbn; lia].
  - rewrite Nat2Z.inj_succ, Z.pow_succ_r in H by lia.
    assert (Hd : 0 <= n / 10 < 10 ^ Z.of_nat f) by (Z.to_euclidean_division_equations; lia).
    assert (Hf' : (0 < f)%nat). { destruct f; [|lia]. cbn in Hd. Z.to_euclidean_division_equations. lia. }
    destruct (IH (n / 10) Hd Hf') as (A & B & D & L). splits.
    + apply Forall_app. split; [assumption|]. constructor; [apply isdigit_spec; Z.to_euclidean_division_equations; lia|constructor].
    + destruct (dec_digits f (n / 10)); discriminate.
    + rewrite dval_app, D. Z.to_euclidean_division_equations. lia.
    + rewrite app_length. cbn. lia.
Qed.
Lemma number_lld : forall n r, 0 <= n <= 9223372036854775807 -> number (lld n ++ 32 :: r) = Some (n, r).
Proof.
  intros n r H. unfold number. destruct (lld_spec 20 n) as (A & B & D & _); [change (10 ^ Z.of_nat 20) with 100000000000000000000; lia|lia|].
  rewrite digits_spec by (try assumption; reflexivity). unfold dval in D. unfold lld. rewrite D. destruct (dec_digits 20 n) eqn:E; [congruence|]. cbn [is_nil negb orb].
  change (32 =? 32) with true. cbv iota. rewrite Z.min_l; [reflexivity|]. unfold ULLONG_MAX, U64. lia.
Qed.
Lemma lld_in : forall n c, 0 <= n <= 9223372036854775807 -> In c (lld n) -> 48 <= c <= 57.
Proof.
  intros n c H Hi. destruct (lld_spec 20 n) as (A & _); [change (10 ^ Z.of_nat 20) with 100000000000000000000; lia|lia|].
  rewrite Forall_forall in A. apply isdigit_spec. now apply A.
Qed.
Lemma lld_len : forall n, 0 <= n <= 9223372036854775807 -> (length (lld n) <= 20)%nat.
Proof. intros n H. destruct (lld_spec 20 n) as (_ & _ & _ & L); [change (10 ^ Z.of_nat 20) with 100000000000000000000; lia|lia|exact L]. Qed.
Lemma parse_ctl_ok : forall m z n, mode_fits m -> 0 <= z <= 9223372036854775807 -> parse_ctl (oct4 m ++ 32 :: lld z ++ 32 :: n) = Some (m, z, n).
Proof.
  intros m z n (M1 & M2) Hz. unfold oct4. cbn [app parse_ctl].
  assert (O : forall x, is_oct (48 + x mod 8) = true) by (intros; unfold is_oct; Z.to_euclidean_division_equations; lia).
  rewrite !O. change (32 =? 32) with true. cbn [andb]. rewrite number_lld by assumption. unfold INT64_MAX. destruct (9223372036854775807 <? z) eqn:E; [lia|].
  f_equal. f_equal. f_equal. Z.to_euclidean_division_equations. lia.
Qed.
Lemma parse_times_ok : forall a b, time_fits (a, b) -> parse_times (lld a ++ bs " 0 " ++ lld b ++ bs " 0") = Some (Some (mkT a 0 b 0)).
Proof.
  intros a b (Ha & Hb). cbn [fst snd] in *. unfold parse_times. change (bs " 0 " ++ lld b ++ bs " 0") with (32 :: 48 :: 32 :: lld b ++ bs " 0").
  rewrite number_lld by assumption.
  assert (U : usec (48 :: 32 :: lld b ++ bs " 0") = (0, 32 :: lld b ++ bs " 0")) by reflexivity. rewrite U.
  change (negb (32 =? 32) || (0 <? 0) || (999999 <? 0)) with false. cbv iota. change (bs " 0") with (32 :: [48]). rewrite number_lld by assumption.
  change (usec [48]) with (0, @nil Z). cbn [is_nil negb orb]. change ((0 <? 0) || (999999 <? 0)) with false. cbn [orb]. change (0 <? 0) with false. change (999999 <? 0) with false. cbn [orb]. unfold INT64_MAX.
  destruct ((9223372036854775807 <? a) || (9223372036854775807 <? b)) eqn:E; [lia|reflexivity].
Qed.
Lemma read_line_ok : forall a n r, ~ In 10 a -> (length a < n)%nat -> read_line n (a ++ 10 :: r) = Some (a ++ [10], r).
Proof.
  induction a as [|c a IH]; intros n r H Hn; (destruct n as [|n]; [cbn in Hn; lia|]); cbn [app read_line].
  - reflexivity.
  - destruct (c =? 10) eqn:E; [exfalso; apply H; left; lia|]. rewrite IH; [reflexivity|intros X; apply H; now right|cbn in Hn; lia].
Qed.
Lemma line_arg : forall a, ~ In 0 a -> cstr (if last (a ++ [10]) 0 =? 10 then removelast (a ++ [10]) else a ++ [10]) = a.
Proof.
  intros a H. rewrite last_last. change (10 =? 10) with true. cbv iota. rewrite removelast_last.
  induction a as [|c a IH]; [reflexivity|]. cbn [cstr]. destruct (c =? 0) eqn:E; [exfalso; apply H; left; lia|]. f_equal. apply IH. intros X. apply H. now right.
Qed.
Lemma plain_not_bad : forall n, plain_name n -> bad_name n = false.
Proof.
  intros n (A & B & _ & D & E). unfold bad_name. rewrite !orb_false_iff. splits.
  - destruct n; [congruence|reflexivity].
  - destruct (existsb _ n) eqn:X; [|reflexivity]. apply existsb_exists in X. destruct X as (c & Hi & Hc). exfalso. apply B. replace 47 with c by lia. assumption.
  - destruct (beqb n (bs ".")) eqn:X; [apply beqb_eq in X; congruence|reflexivity].
  - destruct (beqb n (bs "..")) eqn:X; [apply beqb_eq in X; congruence|reflexivity].
Qed.

(** ** Paths *)
Lemma above_spec : forall q p, above q p = true <-> (exists r, p = q ++ 47 :: r) \/ (q = [47] /\ p <> [47]).
Proof.
  intros q p. unfold above. rewrite orb_true_iff, andb_true_iff, negb_true_iff. split.
  - intros [H|(H & H2)].
    + left. apply beqb_eq in H. exists (zdrop (zlen q + 1) p). rewrite <- (firstn_skipn (Z.to_nat (zlen q + 1)) p) at 1. unfold ztake in H. rewrite H. rewrite <- app_assoc. reflexivity.
    + right. apply beqb_eq in H. split; [assumption|]. intros ->. cbn in H2. discriminate.
  - intros [(r & ->)|(-> & H)].
    + left. apply beqb_eq. unfold ztake, zlen. replace (Z.to_nat (Z.of_nat (length q) + 1)) with (length q + 1)%nat by lia.
      rewrite firstn_app_2. reflexivity.
    + right. split; [reflexivity|]. destruct (beqb p [47]) eqn:E; [apply beqb_eq in E; congruence|reflexivity].
Qed.
Definition under (np q : list Z) : Prop := q = np \/ above np q = true.
Lemma path_app : forall np ns, np <> [47] -> path np ns = np ++ flat_map (cons 47) ns.
Proof. intros np ns H. destruct ns; [cbn; now rewrite app_nil_r|]. cbn [path]. destruct (beqb np (bs "/")) eqn:E; [apply beqb_eq in E; now subst|reflexivity]. Qed.
Lemma path_under : forall np ns, np <> [47] -> under np (path np ns).
Proof.
  intros np ns H. rewrite path_app by assumption. destruct ns as [|n ns]; [left; cbn; now rewrite app_nil_r|]. right. apply above_spec. left. cbn [flat_map app]. eexists. reflexivity.
Qed.
Lemma first_seg : forall (a b x y : list Z), ~ In 47 a -> ~ In 47 b -> (x = [] \/ exists x', x = 47 :: x') -> (y = [] \/ exists y', y = 47 :: y') -> a ++ x = b ++ y -> a = b.
Proof.
  induction a as [|c a IH]; intros b x y Ha Hb Hx Hy E.
  - destruct b as [|d b]; [reflexivity|]. cbn in E. destruct Hx as [-> | (x' & ->)]; [discriminate|]. inversion E; subst. exfalso. apply Hb. now left.
  - destruct b as [|d b].
    + cbn in E. destruct Hy as [-> | (y' & ->)]; [discriminate|]. inversion E; subst. exfalso. apply Ha. now left.
    + inversion E; subst. f_equal. apply (IH b x y); try assumption; intros X; [apply Ha|apply Hb]; now right.
Qed.
Lemma apart : forall pre n1 n2 q, ~ In 47 n1 -> ~ In 47 n2 -> n1 <> [] -> n2 <> [] -> n1 <> n2 -> under (pre ++ 47 :: n1) q ->
  q <> pre ++ 47 :: n2 /\ above (pre ++ 47 :: n2) q = false /\ above q (pre ++ 47 :: n2) = false.
Proof.
  intros pre n1 n2 q H1 H2 Hn Hn2 Hne Hu.
  assert (S1 : forall n, n <> [] -> pre ++ 47 :: n <> [47]).
  { intros n Hx E. apply (f_equal (@length Z)) in E. rewrite app_length in E. destruct n; [congruence|]. cbn in E. lia. }
  assert (X : exists x, q = pre ++ 47 :: n1 ++ x /\ (x = [] \/ exists x', x = 47 :: x')).
  { destruct Hu as [-> | Hu]; [exists []; split; [now rewrite app_nil_r|now left]|]. apply above_spec in Hu. destruct Hu as [(r & ->)|(E & _)].
    - exists (47 :: r). split; [now rewrite <- app_assoc|right; now exists r].
    - exfalso. now apply (S1 n1). }
  clear Hu. destruct X as (x & -> & Hx). splits.
  - intros E. apply app_inv_head in E. inversion E. apply Hne. eapply (first_seg n1 n2 x []); try assumption; [now left|now rewrite app_nil_r].
  - destruct (above _ _) eqn:A; [|reflexivity]. exfalso. apply above_spec in A. destruct A as [(r & E)|(E & _)].
    + rewrite <- app_assoc in E. apply app_inv_head in E. inversion E. apply Hne. eapply (first_seg n1 n2 x (47 :: r)); try assumption. right. now exists r.
    + now apply (S1 n2).
  - destruct (above _ _) eqn:A; [|reflexivity]. exfalso. apply above_spec in A. destruct A as [(r & E)|(E & _)].
    + rewrite <- app_assoc in E. apply app_inv_head in E. cbn in E. inversion E. apply H2. rewrite H0. rewrite !in_app_iff. right. now left.
    + apply (f_equal (@length Z)) in E. rewrite app_length in E. cbn in E. rewrite app_length in E. destruct n1; [congruence|]. cbn in E. lia.
Qed.
Definition pre_of (T : list Z) : list Z := if beqb T (bs "/") then [] else T.
Lemma path_of_pre : forall T n, path_of T true n = pre_of T ++ 47 :: n.
Proof. intros T n. unfold path_of, pre_of. destruct (beqb T (bs "/")) eqn:E; [apply beqb_eq in E; subst; reflexivity|reflexivity]. Qed.
Lemma pre_not_slash : forall pre n, n <> [] -> pre ++ 47 :: n <> [47].
Proof. intros pre n Hx E. apply (f_equal (@length Z)) in E. rewrite app_length in E. destruct n; [congruence|]. cbn in E. lia. Qed.

(** ** One item *)
Lemma tree_ind2 : forall P : tree -> Prop, (forall n m tm d, P (TFile n m tm d)) -> (forall n m tm l, Forall P l -> P (TDir n m tm l)) -> forall t, P t.
Proof.
  intros P HF HD. fix IH 1. intros [n m tm d|n m tm l]; [apply HF|]. apply HD. induction l as [|x l IHl]; constructor; [apply IH|exact IHl].
Qed.
Lemma sendable_all : forall n m tm l, sendable (TDir n m tm l) -> name_fits n /\ mode_fits m /\ time_fits tm /\ NoDup (map tname l) /\ Forall sendable l.
Proof.
  intros n m tm l (A & B & D & E & F). splits; try assumption. clear -F. induction l as [|x l IH]; constructor; [apply F|apply IH, F].
Qed.
Lemma replies_dir : forall p n m tm l, replies p (TDir n m tm l) = ((if p then 1 else 0) + 2 + list_sum (map (replies p) l))%nat.
Proof.
  intros. cbn [replies]. rewrite <- Nat.add_assoc. f_equal. f_equal. induction l as [|x l IH]; [reflexivity|]. cbn [map list_sum fold_right]. now rewrite IH.
Qed.
Lemma repeat_app' : forall (A : Type) (x : A) a b, repeat x (a + b) = repeat x a ++ repeat x b.
Proof. intros. induction a; cbn; [reflexivity|now f_equal]. Qed.

Section K.
Variable Os : os.
Variable C : conf.
Variable w0 : fs.
Hypothesis HW : works Os C w0.
Variable pats : list (list Z).
Variable sp : bool.
Definition u : Z := in_force C.
Definition wd (s : st) : fs * Z := fold_right (step u) (w0, 0) (tr s).
Definition fsof (s : st) : fs := fst (wd s).
Lemma stat_eq : forall p s, stat Os p s = (kind_of (fsof s p), emit (EStat p) s).
Proof. intros. unfold stat. destruct HW as (H & _). rewrite H. reflexivity. Qed.
Lemma call_eq : forall e s, call Os e s = (true, emit e s).
Proof. intros. unfold call. destruct HW as (_ & H & _). now rewrite H. Qed.
Lemma wd_emit : forall e s, wd (emit e s) = step u e (wd s).
Proof. reflexivity. Qed.
Lemma fsof_quiet : forall e s, (match e with EOk | EErr | EStat _ | EBuf _ | EClose _ => True | _ => False end) -> wd (emit e s) = wd s.
Proof. intros e s H. rewrite wd_emit. destruct (wd s). destruct e; try destruct H; reflexivity. Qed.
Lemma wd_with_inp : forall i s, wd (with_inp i s) = wd s.
Proof. reflexivity. Qed.

Definition keeps (k : nat) (s s' : st) : Prop := errs s' = errs s /\ noted s' = false /\ answers (tr s') = repeat EOk k ++ answers (tr s).
Lemma keeps_trans : forall a b s s' s'', keeps a s s' -> keeps b s' s'' -> keeps (b + a) s s''.
Proof. intros a b s s' s'' (A & B & D) (A' & B' & D'). unfold keeps; splits; [congruence|assumption|]. rewrite D', D, repeat_app'. now rewrite app_assoc. Qed.
Lemma keeps_refl : forall s, noted s = false -> keeps 0 s s.
Proof. intros s H. unfold keeps; splits; try reflexivity. assumption. Qed.
Lemma keeps_emit : forall e s, noted s = false -> e <> EOk -> e <> EErr -> keeps 0 s (emit e s).
Proof. intros e s H A B. unfold keeps; splits; try reflexivity; [assumption|]. destruct e; try congruence; reflexivity. Qed.
Lemma keeps_ok : forall s, noted s = false -> keeps 1 s (emit EOk s).
Proof. intros s H. unfold keeps; splits; try reflexivity. assumption. Qed.

Lemma put_same : forall p x w, put p x w p = x.
Proof. intros. unfold put. now rewrite beqb_refl. Qed.
Lemma put_other : forall p x w q, q <> p -> put p x w q = w q.
Proof. intros p x w q H. unfold put. destruct (beqb q p) eqn:E; [apply beqb_eq in E; congruence|reflexivity]. Qed.
Lemma upd_same : forall p f w x, w p = Some x -> upd p f w p = Some (f x).
Proof. intros p f w x H. unfold upd. rewrite put_same, H. reflexivity. Qed.
Lemma upd_other : forall p f w q, q <> p -> upd p f w q = w q.
Proof. intros. unfold upd. now apply put_other. Qed.

(** Reading the lines. *)
Lemma body_line : forall c a rest s, inp s = c :: a ++ 10 :: rest -> ~ In 10 a -> ~ In 0 a -> (length a < 2046)%nat ->
  read_line 2046 (a ++ 10 :: rest) = Some (a ++ [10], rest).
Proof. intros. now apply read_line_ok. Qed.
Lemma go_T : forall targ d tm0 a b rest s, time_fits (a, b) -> inp s = send_times true (a, b) ++ rest ->
  go Os C targ d pats tm0 s = go Os C targ d pats (Some (mkT a 0 b 0)) (emit EOk (with_inp rest s)).
Proof.
  intros targ d tm0 a b rest s Ht Hi. pose proof Ht as (Ha & Hb). cbn [fst snd] in Ha, Hb.
  set (arg := lld a ++ bs " 0 " ++ lld b ++ bs " 0").
  assert (Hi' : inp s = 84 :: arg ++ 10 :: rest).
  { rewrite Hi. unfold send_times, arg. cbn [fst snd]. rewrite <- !app_assoc. reflexivity. }
  assert (In1 : forall c, In c arg -> c = 32 \/ 48 <= c <= 57).
  { intros c. unfold arg. rewrite !in_app_iff. intros [H|[H|[H|H]]]; [apply lld_in in H; [lia|assumption]| |apply lld_in in H; [lia|assumption]|]; cbn in H; intuition lia. }
  assert (L : (length arg < 2046)%nat).
  { unfold arg. rewrite !app_length. pose proof (lld_len a Ha). pose proof (lld_len b Hb). cbn [bs length]. lia. }
  unfold go at 1. cbn [loop]. rewrite Hi'. change (84 =? 10) with false. cbv iota.
  rewrite read_line_ok; [|intros X; apply In1 in X; lia|assumption].
  change (84 =? 1) with false. change (84 =? 2) with false. change (84 =? 69) with false. change (84 =? 84) with true. cbv iota zeta.
  rewrite line_arg by (intros X; apply In1 in X; lia). unfold arg. rewrite parse_times_ok by assumption.
  apply loop_go. unfold len. cbn [inp emit with_inp]. rewrite Hi'. cbn [length]. rewrite app_length. cbn [length]. lia.
Qed.
Lemma go_E : forall targ d tm0 rest s, inp s = bs "E" ++ 10 :: rest -> go Os C targ d pats tm0 s = Done (emit EOk (with_inp rest s)).
Proof.
  intros targ d tm0 rest s Hi. unfold go. cbn [loop]. rewrite Hi. change (bs "E" ++ 10 :: rest) with (69 :: [] ++ 10 :: rest). cbv iota. change (69 =? 10) with false. cbv iota.
  rewrite read_line_ok; [reflexivity|intros []|cbn; lia].
Qed.
(** The rest of a directory record, after its name. *)
Definition dir_rest (targ : list Z) (d : bool) (tm : option times) (m : Z) (np : list Z) (s2 : st) : res :=
  let mode := eff_mode C m in
  let ex := kind_of (fsof s2 np) in
  let '(g, s3) := if is_some ex then
                    if is_dir ex then (Some (c_p C), if c_p C then emit (EChmod np mode) s2 else s2)
                    else (None, s2)
                  else (Some true, emit (EMkdir np (Z.lor mode S_IRWXU)) s2) in
  match g with
  | None => go Os C targ d pats tm (run_err s3)
  | Some modf =>
      match enter Os C np s3 with
      | (s4, None) => Exit s4
      | (s4, Some dd) =>
          match go Os C np dd pats None s4 with
          | Done s5 =>
              let s6 := match tm with Some t => emit (EDtimes np t) s5 | None => s5 end in
              go Os C targ d pats None (if modf then emit (EChmod np mode) s6 else s6)
          | x => x
          end
      end
  end.
Lemma go_ctl : forall c targ d tm m z n rest s, (c = 67 \/ (c = 68 /\ c_r C = true)) -> name_fits n -> mode_fits m -> 0 <= z <= 9223372036854775807 -> name_ok C pats n = true ->
  inp s = c :: (oct4 m ++ 32 :: lld z ++ 32 :: n) ++ 10 :: rest ->
  go Os C targ d pats tm s =
    let np := path_of targ d n in
    let s2 := emit (EStat np) (with_inp rest s) in
    if c =? 68 then dir_rest targ d tm m np s2
    else match recv_file Os C np (kind_of (fsof s2 np)) (eff_mode C m) z tm s2 with
         | FNext tm' s3 => go Os C targ d pats tm' s3
         | FQuit s3 => Exit s3
         | FFuel => Fuel
         end.
Proof.
  intros c targ d tm m z n rest s Hc (Pn & N10 & Nb & Nl) Hm Hz Hok Hi.
  set (arg := oct4 m ++ 32 :: lld z ++ 32 :: n) in *.
  assert (In1 : forall x, In x arg -> 32 <= x <= 57 \/ In x n).
  { intros x. unfold arg, oct4. cbn [app In]. rewrite in_app_iff. cbn [In].
    assert (M : forall y, 0 <= y mod 8 < 8) by (intros; Z.to_euclidean_division_equations; lia).
    pose proof (M (m / 512)). pose proof (M (m / 64)). pose proof (M (m / 8)). pose proof (M m).
    intros [H'|[H'|[H'|[H'|[H'|[H'|[H'|H']]]]]]]; try (left; lia); [apply lld_in in H'; [left; lia|assumption]|now right]. }
  assert (N0 : ~ In 0 n) by apply Pn.
  assert (L : (length arg < 2046)%nat).
  { unfold arg, oct4. cbn [app length]. rewrite app_length. cbn [length]. pose proof (lld_len z Hz). unfold zlen in Nl. lia. }
  assert (Ll : (length rest < length (inp s))%nat) by (rewrite Hi; cbn [length]; rewrite app_length; cbn [length]; lia).
  unfold go at 1. cbn [loop]. rewrite Hi.
  assert (E10 : c =? 10 = false) by lia. rewrite E10.
  rewrite read_line_ok; [|intros X; apply In1 in X; destruct X; [lia|tauto]|assumption].
  assert (E1 : c =? 1 = false) by lia. assert (E2 : c =? 2 = false) by lia. assert (E69 : c =? 69 = false) by lia. assert (E84 : c =? 84 = false) by lia.
  assert (Ecd : (c =? 67) || (c =? 68) = true) by lia.
  cbv zeta. rewrite E1, E2, E69, E84, Ecd. rewrite line_arg by (intros X; apply In1 in X; destruct X; [lia|tauto]).
  unfold arg. rewrite parse_ctl_ok by assumption. rewrite plain_not_bad, Hok by assumption. cbn [negb orb].
  rewrite stat_eq. rewrite call_eq || idtac. set (np := path_of targ d n).
  replace (fsof (emit (EStat np) (with_inp rest s))) with (fsof (with_inp rest s)) by (unfold fsof; now rewrite fsof_quiet).
  set (s2 := emit (EStat np) (with_inp rest s)). assert (L2 : (len s2 < len s)%nat) by exact Ll.
  destruct (c =? 68) eqn:E68.
  - destruct Hc as [Hc|(_ & Hr)]; [lia|]. rewrite Hr. cbn [negb]. unfold dir_rest. cbv zeta.
    replace (fsof s2) with (fsof (with_inp rest s)) by (unfold fsof, s2; now rewrite fsof_quiet).
    rewrite !call_eq. cbn [snd]. set (ex := kind_of _).
    set (g := if is_some ex then _ else _).
    assert (Lg : (len (snd g) < len s)%nat).
    { subst g. destruct (is_some ex); [destruct (is_dir ex)|]; cbn [snd]; try exact L2. destruct (c_p C); exact L2. }
    destruct g as [[modf|] s3]; cbn [snd] in Lg; [|now apply loop_go].
    pose proof (len_enter Os C np s3) as L4. destruct (enter Os C np s3) as [s4 [dd|]]; cbn [fst] in L4; [|reflexivity].
    rewrite loop_go by lia. pose proof (loop_len Os C (S (len s4)) np dd pats None s4) as L5. unfold go at 1 2. destruct (loop Os C (S (len s4)) np dd pats None s4) as [s5|s5|]; try reflexivity.
    cbn [fuel_ok] in L5. destruct tm; rewrite !call_eq; cbn [snd]; rewrite loop_go by (destruct modf; unfold len in *; cbn [inp emit]; lia); reflexivity.
  - pose proof (len_recv Os C np (kind_of (fsof (with_inp rest s) np)) (eff_mode C m) z tm s2) as L3. destruct (recv_file _ _ _ _ _ _ _ _) as [tm' s3|s3|]; try reflexivity.
    apply loop_go. lia.
Qed.

(** The contents of a file. *)
Lemma skipn_skipn' : forall (A : Type) b a (l : list A), skipn a (skipn b l) = skipn (b + a) l.
Proof. induction b as [|b IH]; intros a l; [reflexivity|]. destruct l; [cbn; now rewrite skipn_nil|apply IH]. Qed.
Lemma overwrite_app : forall o a b old, 0 <= o <= zlen old -> overwrite (o + zlen a) b (overwrite o a old) = overwrite o (a ++ b) old.
Proof.
  intros o a b old H. unfold overwrite, ztake, zdrop, zlen in *.
  assert (L1 : length (firstn (Z.to_nat o) old) = Z.to_nat o) by (rewrite firstn_length; lia).
  set (r1 := skipn (Z.to_nat (o + Z.of_nat (length a))) old).
  assert (E : firstn (Z.to_nat o) old ++ a ++ r1 = (firstn (Z.to_nat o) old ++ a) ++ r1) by apply app_assoc. rewrite E.
  set (A := firstn (Z.to_nat o) old ++ a) in *.
  assert (LA : length A = Z.to_nat (o + Z.of_nat (length a))) by (unfold A; rewrite app_length, L1; lia).
  rewrite <- LA at 1. rewrite firstn_app, Nat.sub_diag, firstn_all. cbn [firstn]. rewrite app_nil_r. unfold A at 1. rewrite <- !app_assoc. f_equal. f_equal. f_equal.
  rewrite skipn_app. rewrite skipn_all2 by lia. cbn [app]. unfold r1. rewrite skipn_skipn'. f_equal. rewrite app_length. lia.
Qed.
Lemma overwrite_len : forall o a old, 0 <= o <= zlen old -> o + zlen a <= zlen (overwrite o a old).
Proof. intros. unfold overwrite. rewrite !zlen_app. rewrite zlen_ztake by assumption. pose proof (zlen_nonneg _ (zdrop (o + zlen a) old)). lia. Qed.
Lemma copy_ok : forall np cnt, 0 < cnt -> forall f d rest s w o x, (length (d ++ rest) < f)%nat -> inp s = d ++ rest -> noted s = false -> wd s = (w, o) -> w np = Some x -> 0 <= o <= zlen (n_data x) ->
  exists s' w', copy Os f np cnt (zlen d) false s = CDone false s' /\ inp s' = rest /\ keeps 0 s s' /\ wd s' = (w', o + zlen d) /\
    (forall q, q <> np -> w' q = w q) /\ exists tt, w' np = Some (mkN (n_dir x) (overwrite o d (n_data x)) (n_mode x) tt).
Proof.
  intros np cnt Hc. induction f as [|f IH]; intros d rest s w o x Hf Hi Hn Hw Hx Ho; [lia|]. cbn [copy].
  destruct (zlen d <=? 0) eqn:E.
  - assert (d = []). { destruct d; [reflexivity|]. rewrite zlen_cons in E. pose proof (zlen_nonneg _ d). lia. } subst d. exists s, w.
    splits; [reflexivity|exact Hi|now apply keeps_refl|rewrite zlen_nil, Z.add_0_r; exact Hw|reflexivity|].
    exists (n_time x). rewrite Hx. unfold overwrite. rewrite zlen_nil, Z.add_0_r. cbn [app]. unfold ztake, zdrop. rewrite firstn_skipn. destruct x; reflexivity.
  - set (amt := Z.min cnt (zlen d)). assert (Ha : 0 < amt <= zlen d) by (unfold amt; lia).
    rewrite Hi. destruct (zlen (d ++ rest) <? amt) eqn:El; [rewrite zlen_app in El; pose proof (zlen_nonneg _ rest); lia|].
    assert (Ht : ztake amt (d ++ rest) = ztake amt d).
    { unfold ztake, zlen in *. rewrite firstn_app. replace (Z.to_nat amt - length d)%nat with 0%nat by lia. cbn [firstn]. now rewrite app_nil_r. }
    assert (Hd : zdrop amt (d ++ rest) = zdrop amt d ++ rest).
    { unfold zdrop, zlen in *. rewrite skipn_app. replace (Z.to_nat amt - length d)%nat with 0%nat by lia. reflexivity. }
    rewrite Ht, Hd. rewrite call_eq. cbn [negb note_if].
    set (s2 := emit (EWrite np (ztake amt d)) (with_inp (zdrop amt d ++ rest) s)).
    assert (Hl : zlen (ztake amt d) = amt) by (apply zlen_ztake; lia).
    assert (W2 : wd s2 = (upd np (fun n => mkN (n_dir n) (overwrite o (ztake amt d) (n_data n)) (n_mode n) None) w, o + amt)).
    { unfold s2. rewrite wd_emit, wd_with_inp, Hw. cbn [step]. now rewrite Hl. }
    replace (zlen d - amt) with (zlen (zdrop amt d)) by (apply zlen_zdrop; lia).
    destruct (IH (zdrop amt d) rest s2 _ _ _ ltac:(rewrite app_length in *; unfold zdrop, zlen in *; rewrite skipn_length; lia) eq_refl Hn W2 (upd_same _ _ _ _ Hx)) as (s' & w' & A & B & D & F & G & (tt & K)).
    { cbn [n_data]. pose proof (overwrite_len o (ztake amt d) (n_data x) Ho). lia. }
    exists s', w'. splits; [exact A|exact B|exact D| | |].
    + rewrite F. f_equal. rewrite (zlen_zdrop _ amt d) by lia. lia.
    + intros q Hq. rewrite G by assumption. now rewrite upd_other.
    + exists tt. rewrite K. cbn [n_dir n_data n_mode]. f_equal. f_equal. replace (o + amt) with (o + zlen (ztake amt d)) by lia. rewrite overwrite_app by assumption. f_equal. unfold ztake, zdrop. apply firstn_skipn.
Qed.

Definition frame (np : list Z) (w w' : fs) : Prop := forall q, ~ under np q -> (above q np = false -> w' q = w q) /\ same_but_time (w' q) (w q).
Definition tmof (tm : Z * Z) : times := mkT (fst tm) 0 (snd tm) 0.

Lemma land_idem : forall m x, Z.land (Z.land m (Z.lnot x)) (Z.lnot x) = Z.land m (Z.lnot x).
Proof. intros. rewrite <- Z.land_assoc. now rewrite Z.land_diag. Qed.
Lemma touch_other : forall p w q, above q p = false -> touch p w q = w q.
Proof. intros p w q H. unfold touch. now rewrite H. Qed.
Lemma touch_same : forall p w q, same_but_time (touch p w q) (w q).
Proof. intros p w q. unfold touch, same_but_time. destruct (above q p); [|reflexivity]. destruct (w q) as [[]|]; reflexivity. Qed.
Lemma above_irrefl : forall p, above p p = false.
Proof.
  intros p. destruct (above p p) eqn:E; [|reflexivity]. apply above_spec in E. destruct E as [(r & E)|(-> & E)]; [|congruence].
  apply (f_equal (@length Z)) in E. rewrite app_length in E. cbn in E. lia.
Qed.
Lemma sbt_refl : forall a, same_but_time a a. Proof. reflexivity. Qed.
Lemma sbt_trans : forall a b c, same_but_time a b -> same_but_time b c -> same_but_time a c.
Proof. unfold same_but_time. congruence. Qed.

Lemma item_file : forall targ d n m tm0 data rest s, name_fits n -> mode_fits m -> zlen data <= 9223372036854775807 -> name_ok C pats n = true ->
  inp s = bs "C" ++ oct4 m ++ bs " " ++ lld (zlen data) ++ bs " " ++ n ++ [10] ++ data ++ [0] ++ rest -> noted s = false ->
  let np := path_of targ d n in fits (fsof s) np false ->
  exists s', go Os C targ d pats tm0 s = go Os C targ d pats None s' /\ inp s' = rest /\ keeps 2 s s' /\ frame np (fsof s) (fsof s') /\
    exists tt, fsof s' np = Some (mkN false data (mode_after C (fsof s) np m) tt) /\ (forall t, tm0 = Some t -> tt = Some t).
Proof.
  intros targ d n m tm0 data rest s Nf Mf Zf Nok Hi Hn np Hfit.
  assert (Hi' : inp s = 67 :: (oct4 m ++ 32 :: lld (zlen data) ++ 32 :: n) ++ 10 :: data ++ 0 :: rest).
  { rewrite Hi. rewrite <- !app_assoc. cbn [bs app]. rewrite <- !app_assoc. reflexivity. }
  pose proof (zlen_nonneg _ data) as Z0.
  rewrite (go_ctl 67 targ d tm0 m (zlen data) n (data ++ 0 :: rest) s (or_introl eq_refl) Nf Mf (conj Z0 Zf) Nok Hi'). cbv zeta. change (67 =? 68) with false. cbv iota.
  fold np. set (s2 := emit (EStat np) _). destruct (wd s) as [w o0] eqn:Ew.
  assert (W2 : wd s2 = (w, o0)) by (unfold s2; rewrite fsof_quiet by exact I; rewrite wd_with_inp; exact Ew).
  assert (F0 : fsof s = w) by (unfold fsof; now rewrite Ew). assert (F2 : fsof s2 = w) by (unfold fsof; now rewrite W2). rewrite F2, F0 in *.
  unfold recv_file. rewrite call_eq. cbn [negb]. set (om := eff_mode C m).
  set (s3 := emit (EBuf np) _).
  pose (w1 := match w np with Some _ => w | None => put np (Some (mkN false [] (Z.land (Z.lor om S_IWUSR) (Z.lnot u)) None)) (touch np w) end).
  assert (W3 : wd s3 = (w1, 0)).
  { unfold s3. rewrite !fsof_quiet by exact I. rewrite wd_emit, W2. reflexivity. }
  pose (x := match w np with Some x => x | None => mkN false [] (Z.land (Z.lor om S_IWUSR) (Z.lnot u)) None end).
  assert (X1 : w1 np = Some x). { unfold w1, x. destruct (w np) eqn:E; [exact E|apply put_same]. }
  assert (Xd : n_dir x = false). { unfold x, fits in *. destruct (w np); [exact Hfit|reflexivity]. }
  assert (Fr1 : forall q, q <> np -> (above q np = false -> w1 q = w q) /\ same_but_time (w1 q) (w q)).
  { intros q Hq. unfold w1. destruct (w np); [split; [reflexivity|apply sbt_refl]|]. rewrite put_other by assumption. split; [apply touch_other|apply touch_same]. }
  assert (K3 : keeps 1 s s3). { unfold keeps; splits; try reflexivity. exact Hn. }
  destruct HW as (_ & _ & Hblk). destruct (os_blk Os _) as [cnt|] eqn:Eb; [|exfalso; eapply Hblk; exact Eb].
  destruct (copy_ok np (Z.pos cnt) ltac:(lia) (S (length (inp s3))) data (0 :: rest) s3 w1 0 x) as (s4 & w4 & Ec & I4 & K4 & W4 & Fr4 & (tt4 & X4)); try assumption; try reflexivity.
  { cbn. lia. } { pose proof (zlen_nonneg _ (n_data x)). lia. }
  rewrite Ec. unfold finish. cbv zeta.
  assert (Etr : negb false && match kind_of (w np) with None => true | Some KReg => true | Some _ => false end = true).
  { unfold fits in Hfit. destruct (w np) as [y|]; [|reflexivity]. cbn. now rewrite Hfit. }
  rewrite Etr. rewrite call_eq. cbn [negb note_if].
  set (s5 := emit (ETrunc np (zlen data)) s4).
  set (x5 := mkN false data (n_mode x) None).
  assert (W5 : exists w5, wd s5 = (w5, 0 + zlen data) /\ w5 np = Some x5 /\ forall q, q <> np -> w5 q = w4 q).
  { eexists. split; [unfold s5; rewrite wd_emit, W4; reflexivity|]. split; [|intros q Hq; now rewrite upd_other].
    rewrite (upd_same _ _ _ _ X4). unfold x5. cbn [n_dir n_data n_mode]. rewrite Xd. repeat f_equal.
    unfold overwrite, ztake. cbn [Z.to_nat firstn app]. unfold zlen. rewrite Nat2Z.id, firstn_app, Nat.sub_diag, firstn_all. cbn. apply app_nil_r. }
  destruct W5 as (w5 & W5 & X5 & Fr5).
  set (s6 := set_mode Os C np (kind_of (w np)) om s5).
  assert (W6 : exists w6, wd s6 = (w6, 0 + zlen data) /\ w6 np = Some (mkN false data (mode_after C w np m) None) /\ (forall q, q <> np -> w6 q = w5 q) /\ inp s6 = 0 :: rest /\ keeps 0 s5 s6).
  { assert (N5 : noted s5 = false) by (destruct K4 as (_ & K & _); exact K).
    assert (Same : (exists w6, wd s5 = (w6, 0 + zlen data) /\ w6 np = Some (mkN false data (n_mode x) None) /\ (forall q, q <> np -> w6 q = w5 q) /\ inp s5 = 0 :: rest /\ keeps 0 s5 s5)).
    { exists w5. splits; [assumption|exact X5|reflexivity|exact I4|now apply keeps_refl]. }
    assert (Chg : forall mm, (exists w6, wd (emit (EFchmod np mm) s5) = (w6, 0 + zlen data) /\ w6 np = Some (mkN false data mm None) /\ (forall q, q <> np -> w6 q = w5 q) /\ inp (emit (EFchmod np mm) s5) = 0 :: rest /\ keeps 0 s5 (emit (EFchmod np mm) s5))).
    { intros mm. eexists. split; [rewrite wd_emit, W5; reflexivity|]. split; [rewrite (upd_same _ _ _ _ X5); reflexivity|]. split; [intros q Hq; now rewrite upd_other|].
      split; [exact I4|]. apply keeps_emit; [exact N5|discriminate|discriminate]. }
    unfold s6, set_mode, mode_after, om, eff_mode in *. unfold x in *. unfold u, in_force in *.
    destruct (c_p C).
    - destruct (w np) as [y|]; cbn [kind_of option_map is_some orb]; [rewrite call_eq; apply Chg|].
      destruct (m =? Z.lor m S_IWUSR) eqn:Em; cbn [negb]; [|rewrite call_eq; apply Chg].
      cbn [n_mode] in Same. replace (Z.land (Z.lor m S_IWUSR) (Z.lnot 0)) with m in Same; [exact Same|]. rewrite Z.land_m1_r. lia.
    - destruct (w np) as [y|]; cbn [kind_of option_map is_some negb andb]; [exact Same|].
      destruct (_ =? _) eqn:Em; cbn [negb].
      + apply Z.eqb_eq in Em. rewrite <- Em in Same. cbn [n_mode] in Same. rewrite land_idem in Same. exact Same.
      + rewrite call_eq. cbn [negb note_if]. rewrite land_idem. apply Chg. }
  destruct W6 as (w6 & W6 & X6 & Fr6 & I6 & K6).
  rewrite call_eq. cbn [negb note_if]. set (s7 := emit (EClose np) s6).
  set (s8 := with_inp rest s7).
  assert (R7 : response s7 = (s8, false)) by (unfold response; change (inp s7) with (inp s6); rewrite I6; reflexivity).
  match goal with |- context [response ?x] => change x with s7 end. rewrite R7. clearbody s6.
  assert (N6 : noted s6 = false) by apply K6.
  assert (K8 : keeps 1 s s8).
  { change 1%nat with (0 + (0 + (0 + 1)))%nat. eapply keeps_trans; [|apply (keeps_emit (EClose np)); [exact N6|discriminate|discriminate]].
    eapply keeps_trans; [|exact K6]. eapply keeps_trans; [exact K3|]. destruct K4 as (Ka & Kb & Kc). unfold keeps; splits; [exact Ka|exact Kb|exact Kc]. }
  assert (W8 : wd s8 = (w6, 0 + zlen data)) by (unfold s8; rewrite wd_with_inp; unfold s7; rewrite fsof_quiet by exact I; exact W6).
  assert (FrN : forall q, ~ under np q -> (above q np = false -> w6 q = w q) /\ same_but_time (w6 q) (w q)).
  { intros q Hq. assert (Hne : q <> np) by (intros ->; apply Hq; now left). rewrite Fr6, Fr5, Fr4 by assumption. apply Fr1. assumption. }
  assert (Fl : forall s9, noted s9 = false -> flush s9 = emit EOk s9) by (intros s9 H9; unfold flush; now rewrite H9).
  assert (N8 : noted s8 = false) by apply K8.
  destruct tm0 as [t|].
  - rewrite call_eq. cbn [negb note_if]. rewrite Fl by exact N8. eexists. split; [reflexivity|].
    assert (W9 : exists w9, wd (emit EOk (emit (EUtimes np t) s8)) = (w9, 0 + zlen data) /\ w9 np = Some (mkN false data (mode_after C w np m) (Some t)) /\ forall q, q <> np -> w9 q = w6 q).
    { eexists. split; [rewrite fsof_quiet by exact I; rewrite wd_emit, W8; reflexivity|]. split; [rewrite (upd_same _ _ _ _ X6); reflexivity|]. intros q Hq. now rewrite upd_other. }
    destruct W9 as (w9 & W9 & X9 & Fr9). splits.
    + reflexivity.
    + change 2%nat with (1 + (0 + 1))%nat. eapply keeps_trans; [|apply keeps_ok; exact N8]. eapply keeps_trans; [exact K8|]. apply keeps_emit; [exact N8|discriminate|discriminate].
    + unfold fsof. rewrite W9. cbn [fst]. intros q Hq. assert (Hne : q <> np) by (intros ->; apply Hq; now left). rewrite Fr9 by assumption. now apply FrN.
    + exists (Some t). unfold fsof. rewrite W9. cbn [fst]. split; [exact X9|]. intros t' E. congruence.
  - rewrite Fl by exact N8. eexists. split; [reflexivity|]. splits.
    + reflexivity.
    + change 2%nat with (1 + 1)%nat. eapply keeps_trans; [exact K8|]. apply keeps_ok; exact N8.
    + unfold fsof. rewrite fsof_quiet by exact I. rewrite W8. exact FrN.
    + exists None. unfold fsof. rewrite fsof_quiet by exact I. rewrite W8. split; [exact X6|]. intros; discriminate.
Qed.

Lemma above_child : forall q np n, np <> [47] -> ~ In 47 n -> n <> [] -> ~ under np q -> above q np = false -> above q (np ++ 47 :: n) = false.
Proof.
  intros q np n Hnp Hn Hne Hu Ha. destruct (above q (np ++ 47 :: n)) eqn:E; [|reflexivity]. exfalso. apply above_spec in E. destruct E as [(r & E)|(-> & _)].
  - assert (X : exists y, (np = q ++ y \/ q = np ++ y)).
    { clear -E. revert q r E. induction np as [|c np IH]; intros q r E; [exists q; right; reflexivity|]. destruct q as [|d q]; [exists (c :: np); left; reflexivity|].
      cbn in E. inversion E; subst. destruct (IH _ _ H1) as (y & [-> | ->]); exists y; [left|right]; reflexivity. }
    destruct X as (y & [X|X]); subst.
    + destruct y as [|c y]; [apply Hu; left; now rewrite app_nil_r|]. rewrite <- app_assoc in E. apply app_inv_head in E. cbn in E. inversion E; subst.
      assert (above q (q ++ 47 :: y) = true) by (apply above_spec; left; now exists y). congruence.
    + destruct y as [|c y]; [apply Hu; left; now rewrite app_nil_r|]. rewrite <- app_assoc in E. apply app_inv_head in E. cbn in E. inversion E; subst.
      apply Hn. apply in_or_app. right. now left.
  - assert (above [47] np = true) by (apply above_spec; right; split; [reflexivity|assumption]). congruence.
Qed.
Definition adm (t : tree) : Prop := (c_r C = true /\ pats = []) \/ exists n m tm d, t = TFile n m tm d /\ name_ok C pats n = true.
Definition fits_tree (w : fs) (np : list Z) (t : tree) : Prop := forall ns k d m tm, has t ns k d m tm -> fits w (path np ns) k.
Definition item (t : tree) : Prop := forall targ d rest s, sendable t -> adm t -> inp s = send sp t ++ rest -> noted s = false ->
  let np := path_of targ d (tname t) in np <> [47] -> np <> [] -> fits_tree (fsof s) np t ->
  exists s', go Os C targ d pats None s = go Os C targ d pats None s' /\ inp s' = rest /\ keeps (replies sp t) s s' /\ frame np (fsof s) (fsof s') /\ arrived C sp (fsof s) (fsof s') np t.

Lemma arrived_ext : forall w1 w2 w1' w2' np t, np <> [47] -> (forall q, under np q -> w1 q = w2 q) -> (forall q, under np q -> w1' q = w2' q) -> arrived C sp w1 w1' np t -> arrived C sp w2 w2' np t.
Proof.
  intros w1 w2 w1' w2' np t Hnp H H' A ns k d m tm Hh. destruct (A ns k d m tm Hh) as (x & X1 & X2 & X3 & X4 & X5). exists x.
  pose proof (path_under np ns Hnp) as U. rewrite <- (H' _ U). splits; try assumption. rewrite X4. unfold mode_after. now rewrite (H _ U).
Qed.
Definition frame_list (T : list Z) (l : list tree) (w w' : fs) : Prop :=
  forall q, (forall t, In t l -> ~ under (path_of T true (tname t)) q) -> ((forall t, In t l -> above q (path_of T true (tname t)) = false) -> w' q = w q) /\ same_but_time (w' q) (w q).
Lemma name_of : forall t, sendable t -> plain_name (tname t).
Proof. intros [n m tm d|n m tm l] H; cbn [tname]; [apply H|]. destruct H as (H & _). apply H. Qed.
Lemma items : forall l, Forall item l -> forall T rest s, NoDup (map tname l) -> Forall sendable l -> Forall adm l -> inp s = flat_map (send sp) l ++ rest -> noted s = false ->
  (forall t, In t l -> fits_tree (fsof s) (path_of T true (tname t)) t) ->
  exists s', go Os C T true pats None s = go Os C T true pats None s' /\ inp s' = rest /\ keeps (list_sum (map (replies sp) l)) s s' /\ frame_list T l (fsof s) (fsof s') /\
    forall t, In t l -> arrived C sp (fsof s) (fsof s') (path_of T true (tname t)) t.
Proof.
  induction l as [|t l IH]; intros Hit T rest s Hnd Hs Ha Hi Hn Hf.
  - exists s. splits; [reflexivity|exact Hi|now apply keeps_refl| |intros t []]. intros q _. split; [reflexivity|apply sbt_refl].
  - inversion Hit as [|? ? It Itl]; subst. inversion Hnd as [|? ? Nt Ntl]; subst. inversion Hs as [|? ? St Stl]; subst. inversion Ha as [|? ? At Atl]; subst.
    cbn [flat_map] in Hi. rewrite <- app_assoc in Hi.
    pose proof (name_of t St) as Pt.
    assert (NS : forall t', sendable t' -> path_of T true (tname t') <> [47] /\ path_of T true (tname t') <> []).
    { intros t' S'. rewrite path_of_pre. split; [apply pre_not_slash; apply (name_of t' S')|]. destruct (pre_of T); discriminate. }
    destruct (NS t St) as (N1 & N2).
    destruct (It T true (flat_map (send sp) l ++ rest) s St At Hi Hn N1 N2 (Hf t (or_introl eq_refl))) as (s1 & G1 & I1 & K1 & F1 & A1).
    assert (AP : forall t' q, In t' l -> under (path_of T true (tname t')) q -> ~ under (path_of T true (tname t)) q /\ above q (path_of T true (tname t)) = false).
    { intros t' q Ht' Hq. rewrite path_of_pre in *. assert (S' : sendable t') by (rewrite Forall_forall in Stl; auto). pose proof (name_of t' S') as P'.
      destruct (apart (pre_of T) (tname t') (tname t) q) as (B1 & B2 & B3); try assumption; try apply P'; try apply Pt.
      - intros E. apply Nt. rewrite <- E. now apply in_map.
      - split; [|assumption]. intros [U|U]; congruence. }
    assert (AP2 : forall t' q, In t' l -> under (path_of T true (tname t)) q -> ~ under (path_of T true (tname t')) q /\ above q (path_of T true (tname t')) = false).
    { intros t' q Ht' Hq. rewrite path_of_pre in *. assert (S' : sendable t') by (rewrite Forall_forall in Stl; auto). pose proof (name_of t' S') as P'.
      destruct (apart (pre_of T) (tname t) (tname t') q) as (B1 & B2 & B3); try assumption; try apply P'; try apply Pt.
      - intros E. apply Nt. rewrite E. now apply in_map.
      - split; [|assumption]. intros [U|U]; congruence. }
    destruct (IH Itl T rest s1 Ntl Stl Atl I1 (proj1 (proj2 K1))) as (s' & G' & I' & K' & F' & A').
    { intros t' Ht' ns k d m tm Hh. unfold fits. assert (S' : sendable t') by (rewrite Forall_forall in Stl; auto).
      pose proof (path_under _ ns (proj1 (NS t' S'))) as U. destruct (AP t' _ Ht' U) as (B1 & B2). destruct (F1 _ B1) as (E & _). rewrite (E B2). exact (Hf t' (or_intror Ht') ns k d m tm Hh). }
    exists s'. splits.
    + rewrite G1. exact G'.
    + exact I'.
    + cbn [map list_sum fold_right]. rewrite Nat.add_comm. eapply keeps_trans; eassumption.
    + intros q Hq. destruct (F1 q (Hq t (or_introl eq_refl))) as (E1 & E2). destruct (F' q) as (E3 & E4); [intros t' Ht'; apply Hq; now right|]. split.
      * intros Hab. rewrite E3 by (intros t' Ht'; apply Hab; now right). apply E1. apply Hab. now left.
      * eapply sbt_trans; eassumption.
    + intros t' [<-|Ht'].
      * eapply arrived_ext; [exact N1|reflexivity| |exact A1]. intros q Hq. symmetry. destruct (F' q) as (E3 & _); [intros t' Ht'; now apply (AP2 t' q Ht' Hq)|]. apply E3. intros t' Ht'. now apply (AP2 t' q Ht' Hq).
      * assert (S' : sendable t') by (rewrite Forall_forall in Stl; auto).
        eapply arrived_ext; [apply (NS t' S')| |reflexivity|exact (A' t' Ht')]. intros q Hq. destruct (AP t' q Ht' Hq) as (B1 & B2). destruct (F1 _ B1) as (E & _). now apply E.
Qed.

Lemma enter_ok : forall np s x, fsof s np = Some x -> n_dir x = true -> noted s = false ->
  exists s', enter Os C np s = (s', Some true) /\ inp s' = inp s /\ keeps 1 s s' /\ wd s' = wd s.
Proof.
  intros np s x Hx Hd Hn. unfold enter.
  assert (Kd : kind_of (fsof s np) = Some KDir) by (rewrite Hx; cbn; now rewrite Hd).
  destruct (c_d C).
  - rewrite stat_eq. rewrite Kd. cbn [is_dir negb]. rewrite stat_eq.
    assert (E : fsof (emit EOk (emit (EStat np) s)) np = fsof s np) by (unfold fsof; rewrite !fsof_quiet by exact I; reflexivity).
    rewrite E, Kd. cbn [is_dir]. eexists. split; [reflexivity|]. splits; [reflexivity|unfold keeps; splits; try reflexivity; exact Hn|]. now rewrite !fsof_quiet.
  - cbn [is_dir negb]. rewrite stat_eq.
    assert (E : fsof (emit EOk s) np = fsof s np) by (unfold fsof; rewrite !fsof_quiet by exact I; reflexivity).
    rewrite E, Kd. cbn [is_dir]. eexists. split; [reflexivity|]. splits; [reflexivity|unfold keeps; splits; try reflexivity; exact Hn|]. now rewrite !fsof_quiet.
Qed.

Lemma item_dir : forall targ d n m tm0 l rest s, Forall item l -> name_fits n -> mode_fits m -> NoDup (map tname l) -> Forall sendable l -> c_r C = true -> pats = [] ->
  inp s = bs "D" ++ oct4 m ++ bs " 0 " ++ n ++ [10] ++ flat_map (send sp) l ++ bs "E" ++ [10] ++ rest -> noted s = false ->
  let np := path_of targ d n in np <> [47] -> np <> [] -> fits (fsof s) np true -> (forall t, In t l -> fits_tree (fsof s) (path_of np true (tname t)) t) ->
  exists s', go Os C targ d pats tm0 s = go Os C targ d pats None s' /\ inp s' = rest /\ keeps (2 + list_sum (map (replies sp) l)) s s' /\ frame np (fsof s) (fsof s') /\
    (exists x, fsof s' np = Some x /\ n_dir x = true /\ n_mode x = mode_after C (fsof s) np m /\ (forall t, tm0 = Some t -> n_time x = Some t)) /\
    forall t, In t l -> arrived C sp (fsof s) (fsof s') (path_of np true (tname t)) t.
Proof.
  intros targ d n m tm0 l rest s Hit Nf Mf Hnd Hs Hr Hp Hi Hn np Hnp Hne Hfit Hfl.
  assert (Hi' : inp s = 68 :: (oct4 m ++ 32 :: lld 0 ++ 32 :: n) ++ 10 :: flat_map (send sp) l ++ bs "E" ++ 10 :: rest).
  { rewrite Hi. rewrite <- !app_assoc. cbn [bs app]. rewrite <- !app_assoc. reflexivity. }
  assert (Nok : name_ok C pats n = true) by (rewrite Hp; reflexivity).
  rewrite (go_ctl 68 targ d tm0 m 0 n _ s (or_intror (conj eq_refl Hr)) Nf Mf ltac:(lia) Nok Hi'). cbv zeta. change (68 =? 68) with true. cbv iota. fold np.
  set (s2 := emit (EStat np) _). destruct (wd s) as [w o0] eqn:Ew.
  assert (W2 : wd s2 = (w, o0)) by (unfold s2; rewrite fsof_quiet by exact I; rewrite wd_with_inp; exact Ew).
  assert (F0 : fsof s = w) by (unfold fsof; now rewrite Ew). assert (F2 : fsof s2 = w) by (unfold fsof; now rewrite W2).
  unfold dir_rest. cbv zeta. rewrite F2. rewrite F0 in *. set (mode := eff_mode C m).
  set (g := if is_some (kind_of (w np)) then _ else _).
  pose (new := match w np with None => true | Some _ => false end).
  assert (Hg : exists s3 w3 x3, g = (Some (c_p C || new), s3) /\ inp s3 = inp s2 /\ keeps 0 s s3 /\ wd s3 = (w3, o0) /\ w3 np = Some x3 /\ n_dir x3 = true /\
     (c_p C || new = false -> n_mode x3 = mode_after C w np m) /\ (forall q, q <> np -> (above q np = false -> w3 q = w q) /\ same_but_time (w3 q) (w q))).
  { subst g new. unfold fits, mode_after in *. destruct (w np) as [x|] eqn:Ex; cbn [kind_of option_map is_some].
    - rewrite Hfit. cbn [is_dir]. rewrite orb_false_r. destruct (c_p C).
      + eexists _, _, _. split; [reflexivity|]. split; [reflexivity|]. split; [unfold keeps; splits; try reflexivity; exact Hn|]. split; [rewrite wd_emit, W2; reflexivity|]. split; [apply upd_same; exact Ex|].
        split; [exact Hfit|]. split; [intros; discriminate|]. intros q Hq. rewrite upd_other by assumption. split; [reflexivity|apply sbt_refl].
      + eexists _, _, _. split; [reflexivity|]. split; [reflexivity|]. split; [unfold keeps; splits; try reflexivity; exact Hn|]. split; [exact W2|]. split; [exact Ex|].
        split; [exact Hfit|]. split; [reflexivity|]. intros q Hq. split; [reflexivity|apply sbt_refl].
    - rewrite orb_true_r. eexists _, _, _. split; [reflexivity|]. split; [reflexivity|]. split; [unfold keeps; splits; try reflexivity; exact Hn|]. split; [rewrite wd_emit, W2; reflexivity|]. split; [apply put_same|].
      split; [reflexivity|]. split; [intros; discriminate|]. intros q Hq. rewrite put_other by assumption. split; [apply touch_other|apply touch_same]. }
  destruct Hg as (s3 & w3 & x3 & -> & I3 & K3 & W3 & X3 & D3 & M3 & F3).
  assert (Fs3 : fsof s3 = w3) by (unfold fsof; now rewrite W3).
  destruct (enter_ok np s3 x3) as (s4 & -> & I4 & K4 & W4); [now rewrite Fs3|assumption|apply K3|].
  assert (Fs4 : fsof s4 = w3) by (unfold fsof; rewrite W4; now rewrite W3).
  assert (PN : forall t, In t l -> path_of np true (tname t) = np ++ 47 :: tname t).
  { intros t _. rewrite path_of_pre. unfold pre_of. destruct (beqb np (bs "/")) eqn:E; [apply beqb_eq in E; exfalso; exact (Hnp E)|reflexivity]. }
  assert (SN : forall t, In t l -> plain_name (tname t)) by (intros t Ht; apply name_of; rewrite Forall_forall in Hs; auto).
  assert (UN : forall t q, In t l -> under (path_of np true (tname t)) q -> q <> np /\ above q np = false).
  { intros t q Ht Hq. rewrite (PN t Ht) in Hq. assert (X : exists y, q = np ++ 47 :: y).
    { destruct Hq as [-> | Hq]; [eauto|]. apply above_spec in Hq. destruct Hq as [(r & ->)|(E & _)]; [rewrite <- app_assoc; cbn; eauto|]. exfalso. revert E. apply pre_not_slash. apply (SN t Ht). }
    destruct X as (y & ->). split.
    - intros E. apply (f_equal (@length Z)) in E. rewrite app_length in E. cbn in E. lia.
    - destruct (above _ np) eqn:E; [|reflexivity]. apply above_spec in E. destruct E as [(r & E)|(E & _)].
      + apply (f_equal (@length Z)) in E. rewrite !app_length in E. cbn in E. lia.
      + destruct np as [|c np']; [congruence|]. apply (f_equal (@length Z)) in E. cbn in E. rewrite app_length in E. cbn in E. lia. }
  destruct (items l Hit np (bs "E" ++ 10 :: rest) s4 Hnd Hs) as (s5 & G5 & I5 & K5 & F5 & A5).
  { apply Forall_forall. intros t _. left. split; assumption. }
  { rewrite I4, I3. reflexivity. } { apply K4. }
  { intros t Ht ns k dd mm tm Hh. rewrite Fs4. unfold fits. assert (U : under (path_of np true (tname t)) (path (path_of np true (tname t)) ns)).
    { apply path_under. rewrite (PN t Ht). apply pre_not_slash. apply (SN t Ht). }
    destruct (UN t _ Ht U) as (B1 & B2). destruct (F3 _ B1) as (E & _). rewrite (E B2). exact (Hfl t Ht ns k dd mm tm Hh). }
  rewrite G5. rewrite (go_E _ _ _ rest s5 I5).
  set (s6 := emit EOk (with_inp rest s5)).
  assert (Fs6 : fsof s6 = fsof s5) by (unfold fsof, s6; rewrite fsof_quiet by exact I; reflexivity).
  destruct (wd s6) as [w6 o6] eqn:W6. assert (E6 : fsof s6 = w6) by (unfold fsof; now rewrite W6).
  rewrite Fs4 in *. rewrite <- Fs6, E6 in *.
  assert (N5 : noted s5 = false) by apply K5.
  assert (K6 : keeps (2 + list_sum (map (replies sp) l)) s s6).
  { replace (2 + list_sum (map (replies sp) l))%nat with (1 + (list_sum (map (replies sp) l) + (1 + 0)))%nat by lia.
    eapply keeps_trans; [|apply (keeps_ok (with_inp rest s5)); exact N5]. eapply keeps_trans; [|exact K5]. eapply keeps_trans; [exact K3|exact K4]. }
  assert (X6 : exists x6, w6 np = Some x6 /\ n_dir x6 = true /\ n_mode x6 = n_mode x3).
  { destruct (F5 np) as (_ & E).
    { intros t Ht [U|U]; rewrite (PN t Ht) in U.
      - apply (f_equal (@length Z)) in U. rewrite app_length in U. cbn in U. lia.
      - apply above_spec in U. destruct U as [(r & U)|(U & _)]; [apply (f_equal (@length Z)) in U; rewrite !app_length in U; cbn in U; lia|]. revert U. apply pre_not_slash. apply (SN t Ht). }
    unfold same_but_time in E. rewrite X3 in E. destruct (w6 np) as [[dd da mo ti]|]; cbn in E; [|discriminate]. inversion E. eexists. split; [reflexivity|]. cbn. now rewrite D3 in *. }
  destruct X6 as (x6 & X6 & D6 & M6).
  set (s7 := match tm0 with Some t => emit (EDtimes np t) s6 | None => s6 end).
  assert (H7 : exists w7 x7, wd s7 = (w7, o6) /\ w7 np = Some x7 /\ n_dir x7 = true /\ n_mode x7 = n_mode x6 /\ (forall t, tm0 = Some t -> n_time x7 = Some t) /\ (forall q, q <> np -> w7 q = w6 q) /\ inp s7 = rest /\ keeps 0 s6 s7).
  { unfold s7. destruct tm0 as [t|].
    - eexists _, _. split; [rewrite wd_emit, W6; reflexivity|]. split; [apply upd_same; exact X6|]. split; [exact D6|]. split; [reflexivity|]. split; [intros t' E; cbn; congruence|].
      split; [intros q Hq; now rewrite upd_other|]. split; [reflexivity|]. unfold keeps; splits; try reflexivity. exact N5.
    - exists w6, x6. splits; try assumption; try reflexivity; try (intros; discriminate). unfold keeps; splits; try reflexivity. exact N5. }
  destruct H7 as (w7 & x7 & W7 & X7 & D7 & M7 & T7 & F7 & I7 & K7). clearbody s7.
  set (s8 := if c_p C || new then emit (EChmod np mode) s7 else s7).
  assert (N7 : noted s7 = false) by apply K7.
  assert (H8 : exists w8 x8, wd s8 = (w8, o6) /\ w8 np = Some x8 /\ n_dir x8 = true /\ n_mode x8 = mode_after C w np m /\ (forall t, tm0 = Some t -> n_time x8 = Some t) /\ (forall q, q <> np -> w8 q = w6 q) /\ inp s8 = rest /\ keeps 0 s7 s8).
  { unfold s8. destruct (c_p C || new) eqn:Em.
    - eexists _, _. split; [rewrite wd_emit, W7; reflexivity|]. split; [apply upd_same; exact X7|]. split; [exact D7|]. split.
      + cbn [n_mode]. unfold mode, eff_mode, mode_after. destruct (c_p C); [reflexivity|]. cbn in Em. unfold new in Em. destruct (w np); [discriminate|reflexivity].
      + split; [exact T7|]. split; [intros q Hq; rewrite upd_other by assumption; now apply F7|]. split; [exact I7|]. unfold keeps; splits; try reflexivity. exact N7.
    - exists w7, x7. splits; try assumption; [rewrite M7, M6; now apply M3|]. unfold keeps; splits; try reflexivity. exact N7. }
  destruct H8 as (w8 & x8 & W8 & X8 & D8 & M8 & T8 & F8 & I8 & K8). clearbody s8.
  exists s8. assert (E8 : fsof s8 = w8) by (unfold fsof; now rewrite W8). rewrite E8. splits.
  - reflexivity.
  - exact I8.
  - replace (2 + list_sum (map (replies sp) l))%nat with (0 + (0 + (2 + list_sum (map (replies sp) l))))%nat by lia. eapply keeps_trans; [|exact K8]. eapply keeps_trans; [exact K6|exact K7].
  - intros q Hq. assert (Hqn : q <> np) by (intros ->; apply Hq; now left). rewrite F8 by assumption. destruct (F3 q Hqn) as (B1 & B2).
    destruct (F5 q) as (B3 & B4).
    { intros t Ht U. apply Hq. rewrite (PN t Ht) in U. right. destruct U as [-> | U]; [apply above_spec; left; now exists (tname t)|].
      apply above_spec in U. destruct U as [(r & ->)|(U & _)]; [apply above_spec; left; rewrite <- app_assoc; cbn; eauto|]. exfalso. revert U. apply pre_not_slash. apply (SN t Ht). }
    split.
    + intros Hab. rewrite B3; [now apply B1|]. intros t Ht. rewrite (PN t Ht). apply above_child; try assumption; apply (SN t Ht).
    + eapply sbt_trans; eassumption.
  - exists x8. splits; assumption.
  - intros t Ht. eapply arrived_ext; [|intros q Hq; destruct (UN t q Ht Hq) as (B1 & B2); destruct (F3 q B1) as (E & _); exact (E B2)| |exact (A5 t Ht)].
    + rewrite (PN t Ht). apply pre_not_slash. apply (SN t Ht).
    + intros q Hq. destruct (UN t q Ht Hq) as (B1 & B2). symmetry. now apply F8.
Qed.

Lemma all_items : forall t, item t.
Proof.
  apply (tree_ind2 item).
  - intros n m tm data targ d rest s St At Hi Hn np N1 N2 Hf. cbn [tname] in *. destruct St as (Nf & Mf & Tf & Zf).
    assert (Nok : name_ok C pats n = true).
    { destruct At as [(_ & ->)|(n' & m' & tm' & d' & E & H)]; [reflexivity|]. inversion E; subst. exact H. }
    assert (Hfit : fits (fsof s) np false) by (apply (Hf [] false data m tm); constructor).
    cbn [send] in Hi. unfold arrived.
    destruct sp eqn:Esp; cbn [send_times] in Hi.
    + assert (Hi1 : inp s = send_times true (fst tm, snd tm) ++ (bs "C" ++ oct4 m ++ bs " " ++ lld (zlen data) ++ bs " " ++ n ++ [10] ++ data ++ [0] ++ rest)).
      { rewrite Hi. unfold send_times. cbn [fst snd]. rewrite <- !app_assoc. reflexivity. }
      assert (Tf' : time_fits (fst tm, snd tm)) by exact Tf.
      rewrite (go_T targ d None (fst tm) (snd tm) _ s Tf' Hi1).
      set (s1 := emit EOk _). assert (Fs1 : fsof s1 = fsof s) by (unfold fsof, s1; rewrite fsof_quiet by exact I; reflexivity).
      destruct (item_file targ d n m (Some (mkT (fst tm) 0 (snd tm) 0)) data rest s1 Nf Mf Zf Nok eq_refl Hn) as (s' & G & I' & K & F & (tt & X & Xt)); [rewrite Fs1; exact Hfit|].
      rewrite Fs1 in *. exists s'. splits; [exact G|exact I'| |exact F|].
      * change (replies true (TFile n m tm data)) with (2 + 1)%nat. eapply keeps_trans; [|exact K]. unfold keeps; splits; try reflexivity. exact Hn.
      * intros ns k dd mm tm' Hh. inversion Hh; subst. cbn [path]. eexists. split; [exact X|]. cbn [n_dir n_data n_mode n_time]. splits; try reflexivity. intros _. now apply Xt.
    + assert (Hi1 : inp s = bs "C" ++ oct4 m ++ bs " " ++ lld (zlen data) ++ bs " " ++ n ++ [10] ++ data ++ [0] ++ rest).
      { rewrite Hi. rewrite <- !app_assoc. reflexivity. }
      destruct (item_file targ d n m None data rest s Nf Mf Zf Nok Hi1 Hn Hfit) as (s' & G & I' & K & F & (tt & X & Xt)).
      exists s'. splits; [exact G|exact I'|exact K|exact F|].
      intros ns k dd mm tm' Hh. inversion Hh; subst. cbn [path]. eexists. split; [exact X|]. cbn [n_dir n_data n_mode n_time]. splits; try reflexivity. intros; discriminate.
  - intros n m tm l Hit targ d rest s St At Hi Hn np N1 N2 Hf. cbn [tname] in *. apply sendable_all in St. destruct St as (Nf & Mf & Tf & Nd & Sl).
    destruct At as [(Hr & Hp)|(n' & m' & tm' & d' & E & _)]; [|discriminate].
    assert (Hfit : fits (fsof s) np true) by (apply (Hf [] true [] m tm); constructor).
    assert (PC : forall t ns, In t l -> path np (tname t :: ns) = path (path_of np true (tname t)) ns).
    { intros t ns Ht. rewrite Forall_forall in Sl. pose proof (name_of t (Sl t Ht)) as P. rewrite path_of_pre. unfold pre_of. destruct (beqb np (bs "/")) eqn:E; [apply beqb_eq in E; exfalso; exact (N1 E)|].
      rewrite !path_app; [|apply pre_not_slash; apply P|assumption]. cbn [flat_map]. now rewrite <- app_assoc. }
    assert (Hfl : forall t, In t l -> fits_tree (fsof s) (path_of np true (tname t)) t).
    { intros t Ht ns k dd mm tm' Hh. rewrite <- PC by assumption. apply (Hf (tname t :: ns) k dd mm tm'). econstructor; eassumption. }
    assert (Arr : forall w w' tm0, (sp = true -> tm0 = Some (mkT (fst tm) 0 (snd tm) 0)) -> (exists x, w' np = Some x /\ n_dir x = true /\ n_mode x = mode_after C w np m /\ (forall t, tm0 = Some t -> n_time x = Some t)) ->
       (forall t, In t l -> arrived C sp w w' (path_of np true (tname t)) t) -> arrived C sp w w' np (TDir n m tm l)).
    { intros w w' tm0 Htm (x & X1 & X2 & X3 & X4) Hc ns k dd mm tm' Hh. inversion Hh; subst.
      - cbn [path]. exists x. splits; try assumption; [intros; discriminate|]. intros Hs. apply X4. now apply Htm.
      - rewrite PC by assumption. now apply (Hc t). }
    cbn [send] in Hi. rewrite replies_dir.
    assert (Esp : sp = true \/ sp = false) by (destruct sp; [now left|now right]). destruct Esp as [Esp|Esp].
    + assert (Hi1 : inp s = send_times true (fst tm, snd tm) ++ (bs "D" ++ oct4 m ++ bs " 0 " ++ n ++ [10] ++ flat_map (send sp) l ++ bs "E" ++ [10] ++ rest)).
      { rewrite Hi. rewrite Esp. unfold send_times. cbn [fst snd]. rewrite <- !app_assoc. reflexivity. }
      assert (Tf' : time_fits (fst tm, snd tm)) by exact Tf.
      rewrite (go_T targ d None (fst tm) (snd tm) _ s Tf' Hi1).
      set (s1 := emit EOk _). assert (Fs1 : fsof s1 = fsof s) by (unfold fsof, s1; rewrite fsof_quiet by exact I; reflexivity).
      destruct (item_dir targ d n m (Some (mkT (fst tm) 0 (snd tm) 0)) l rest s1 Hit Nf Mf Nd Sl Hr Hp eq_refl Hn N1 N2) as (s' & G & I' & K & F & X & A); [rewrite Fs1; exact Hfit|rewrite Fs1; exact Hfl|].
      rewrite Fs1 in *. exists s'. splits; [exact G|exact I'| |exact F|].
      * rewrite Esp. rewrite <- Nat.add_assoc, Nat.add_comm. rewrite Esp in K. eapply keeps_trans; [|exact K]. unfold keeps; splits; try reflexivity. exact Hn.
      * eapply Arr; [|exact X|exact A]. reflexivity.
    + assert (Hi1 : inp s = bs "D" ++ oct4 m ++ bs " 0 " ++ n ++ [10] ++ flat_map (send sp) l ++ bs "E" ++ [10] ++ rest).
      { rewrite Hi. rewrite Esp. unfold send_times. rewrite <- !app_assoc. reflexivity. }
      destruct (item_dir targ d n m None l rest s Hit Nf Mf Nd Sl Hr Hp Hi1 Hn N1 N2 Hfit Hfl) as (s' & G & I' & K & F & X & A).
      exists s'. splits; [exact G|exact I'| |exact F|].
      * rewrite Esp. rewrite Esp in K. exact K.
      * eapply Arr; [|exact X|exact A]. intros; congruence.
Qed.
End K.
