(** Proofs for ServProps, part 3: Match lines, and reading files. *)
From Coq Require Import String.
From Verif Require Import Base Text MatchModel MatchProof MiscNumModel ArgvModel AddrModel AddrProof ServModel ServSpec ServProof ServProof2.
Local Open Scope Z_scope.

Lemma tolower_eq : forall c, tolower c = 61 <-> c = 61.
Proof. intros c. unfold tolower, isupper. destruct ((65 <=? c) && (c <=? 90)) eqn:Q; lia. Qed.
Lemma in_lower : forall w, In 61 w -> In 61 (map tolower w).
Proof. intros w H. apply in_map_iff. exists 61. split; [reflexivity|exact H]. Qed.
Ltac absurd_name := repeat match goal with
  | A : spelled ?n ?a, B : spelled ?n ?b |- _ => exfalso; unfold spelled in A, B; rewrite A in B; vm_compute in B; discriminate B
  end.
Lemma name_is : forall n s, map tolower (bs s) = bs s -> strcaseeq n (bs s) = true <-> spelled n s.
Proof. intros n s H. unfold spelled. rewrite strcaseeq_iff, H. reflexivity. Qed.
Lemma is1_iff : forall r, is1 r = true <-> r = Some 1.
Proof. intros [v|]; cbn [is1]; [|split; discriminate]. rewrite Z.eqb_eq. split; congruence. Qed.

Section Refine.
Variable E : env.

Lemma ga_iff : forall pat gs found, ga_match_list gs pat found = true <->
  (found = true \/ exists g, In g gs /\ match_pattern_list g pat false = Some 1) /\ (forall g, In g gs -> match_pattern_list g pat false <> Some (-1)).
Proof.
  intros pat. induction gs as [|g gs IH]; intros found; cbn [ga_match_list].
  - split; [intros ->; split; [auto|intros ? []]|]. intros [[A|(? & [] & _)] _]; exact A.
  - destruct (match_pattern_list g pat false) as [v|] eqn:Q; [|rewrite match_pattern_list_entries in Q; discriminate].
    destruct (v =? -1) eqn:B.
    + split; [discriminate|]. intros [_ A]. exfalso. apply (A g); [now left|]. rewrite Q. f_equal. lia.
    + rewrite IH. destruct (v =? 1) eqn:C.
      * split; intros [A D].
        -- split; [right; exists g; split; [now left|]; rewrite Q; f_equal; lia|]. intros x [<-|X]; [rewrite Q; intros X; injection X; lia|now apply D].
        -- split; [now left|]. intros x X. apply D. now right.
      * split; intros [A D].
        -- split; [destruct A as [A|(x & A & A')]; [auto|right; exists x; split; [now right|exact A']]|]. intros x [<-|X]; [rewrite Q; intros X; injection X; lia|now apply D].
        -- split; [|intros x X; apply D; now right]. destruct A as [A|(x & [<-|A] & A')]; [auto|rewrite Q in A'; injection A'; lia|right; eauto].
Qed.

Definition metg (ci : option conn) (k : criterion) : Prop := match ci with Some c => met E c k | None => always_met E k end.
Lemma text_crit_some : forall ci field f b, text_crit ci field f = Some b ->
  (b = true <-> exists c t, ci = Some c /\ field c = Some t /\ f t = true).
Proof.
  intros ci field f b H. unfold text_crit, missing in H. destruct ci as [c|].
  - destruct (ci_test c && match field c with None => true | Some _ => false end) eqn:Q.
    + injection H as <-. split; [discriminate|]. intros (c' & t & [= <-] & A & _). rewrite A, andb_false_r in Q. discriminate.
    + destruct (field c) as [t|] eqn:F; [|discriminate]. injection H as <-. split; [intros A; exists c, t; auto|]. intros (c' & t' & [= <-] & A & B). congruence.
  - injection H as <-. split; [discriminate|]. intros (c & t & A & _). discriminate.
Qed.
Lemma addr_crit_some : forall ci field arg b, addr_crit E ci field arg = Some b ->
  (b = true <-> exists c t, ci = Some c /\ field c = Some t /\ addr_match_list (e_pton E) (Some t) arg = 1).
Proof.
  intros ci field arg b H. unfold addr_crit, missing in H. destruct ci as [c|].
  - destruct (ci_test c && match field c with None => true | Some _ => false end) eqn:Q.
    + destruct (addr_match_list (e_pton E) None arg =? 0); [|discriminate]. injection H as <-. split; [discriminate|].
      intros (c' & t & [= <-] & A & _). rewrite A, andb_false_r in Q. discriminate.
    + destruct (field c) as [t|] eqn:F; [|discriminate]. cbv zeta in H. destruct (addr_match_list (e_pton E) (Some t) arg =? 1) eqn:V.
      * injection H as <-. split; [|auto]. intros _. exists c, t. rewrite Z.eqb_eq in V. auto.
      * destruct (addr_match_list (e_pton E) (Some t) arg =? -2); [discriminate|]. injection H as <-. split; [discriminate|].
        intros (c' & t' & [= <-] & A & B). apply Z.eqb_neq in V. congruence.
  - destruct (addr_match_list (e_pton E) None arg =? 0); [|discriminate]. injection H as <-. split; [discriminate|]. intros (c & t & A & _). discriminate.
Qed.
Lemma crit_some : forall ci n a b, crit E ci n a = Some b -> (b = true <-> metg ci (CAttr n a)).
Proof.
  intros ci n a b H. unfold crit in H.
  destruct (strcaseeq n (bs "user")) eqn:N1; [|destruct (strcaseeq n (bs "group")) eqn:N2; [|destruct (strcaseeq n (bs "host")) eqn:N3;
    [|destruct (strcaseeq n (bs "address")) eqn:N4; [|destruct (strcaseeq n (bs "localaddress")) eqn:N5; [|destruct (strcaseeq n (bs "localport")) eqn:N6;
    [|destruct (strcaseeq n (bs "rdomain")) eqn:N7; [|destruct (strcaseeq n (bs "version")) eqn:N8; [|discriminate]]]]]]]];
  match goal with X : strcaseeq n _ = true |- _ => apply name_is in X; [|reflexivity]; rename X into N end; clear -H N.
  - rewrite (text_crit_some _ _ _ _ H). split.
    + intros (c & t & -> & A & B). cbn [metg met]. left. split; [exact N|]. exists t. split; [exact A|now apply is1_iff].
    + destruct ci as [c|]; cbn [metg met always_met].
      * intros [(_ & u & A & B)|[(M & _)|[(M & _)|[(M & _)|[(M & _)|[(M & _)|[(M & _)|(M & _)]]]]]]]; absurd_name. exists c, u. rewrite is1_iff. auto.
      * intros (M & _). absurd_name.
  - rewrite (text_crit_some _ _ _ _ H). split.
    + intros (c & t & -> & A & B). cbn [metg met]. right; left. split; [exact N|]. unfold match_group in B.
      destruct (e_groups E t) as [gs|] eqn:G; [|discriminate]. exists t, gs. split; [exact A|]. split; [exact G|].
      destruct gs as [|g gs]; [discriminate|]. apply ga_iff in B. destruct B as [[B|B] D]; [discriminate|]. auto.
    + destruct ci as [c|]; cbn [metg met always_met].
      * intros [(M & _)|[(_ & u & gs & A & B & C & D)|[(M & _)|[(M & _)|[(M & _)|[(M & _)|[(M & _)|(M & _)]]]]]]]; absurd_name. exists c, u. split; [reflexivity|]. split; [exact A|].
        unfold match_group. rewrite B. destruct gs as [|g gs]; [destruct C as (? & [] & _)|]. apply ga_iff. auto.
      * intros (M & _). absurd_name.
  - rewrite (text_crit_some _ _ _ _ H). unfold match_hostname. split.
    + intros (c & t & -> & A & B). cbn [metg met]. do 2 right; left. split; [exact N|]. exists t. split; [exact A|now apply is1_iff].
    + destruct ci as [c|]; cbn [metg met always_met].
      * intros [(M & _)|[(M & _)|[(_ & u & A & B)|[(M & _)|[(M & _)|[(M & _)|[(M & _)|(M & _)]]]]]]]; absurd_name. exists c, u. rewrite is1_iff. auto.
      * intros (M & _). absurd_name.
  - rewrite (addr_crit_some _ _ _ _ H). split.
    + intros (c & t & -> & A & B). cbn [metg met]. do 3 right; left. eauto.
    + destruct ci as [c|]; cbn [metg met always_met].
      * intros [(M & _)|[(M & _)|[(M & _)|[(_ & u & A & B)|[(M & _)|[(M & _)|[(M & _)|(M & _)]]]]]]]; absurd_name. exists c, u. auto.
      * intros (M & _). absurd_name.
  - rewrite (addr_crit_some _ _ _ _ H). split.
    + intros (c & t & -> & A & B). cbn [metg met]. do 4 right; left. eauto.
    + destruct ci as [c|]; cbn [metg met always_met].
      * intros [(M & _)|[(M & _)|[(M & _)|[(M & _)|[(_ & u & A & B)|[(M & _)|[(M & _)|(M & _)]]]]]]]; absurd_name. exists c, u. auto.
      * intros (M & _). absurd_name.
  - cbv zeta in H. destruct (a2port (e_serv E) a =? -1) eqn:P; [discriminate|]. destruct ci as [c|]; cbn [metg met always_met].
    + destruct (ci_test c && (ci_lport c =? -1)) eqn:T.
      * injection H as <-. split; [discriminate|]. apply andb_true_iff in T. destruct T as [_ T].
        intros [(M & _)|[(M & _)|[(M & _)|[(M & _)|[(M & _)|[(_ & A & B)|[(M & _)|(M & _)]]]]]]]; absurd_name. lia.
      * destruct (ci_lport c =? 0); [discriminate|]. injection H as <-. rewrite Z.eqb_eq. split.
        -- intros A. do 5 right; left. split; [exact N|]. split; [exact A|]. lia.
        -- intros [(M & _)|[(M & _)|[(M & _)|[(M & _)|[(M & _)|[(_ & A & B)|[(M & _)|(M & _)]]]]]]]; absurd_name. exact A.
    + injection H as <-. split; [discriminate|]. intros (M & _). absurd_name.
  - rewrite (text_crit_some _ _ _ _ H). split.
    + intros (c & t & -> & A & B). cbn [metg met]. do 6 right; left. split; [exact N|]. exists t. split; [exact A|now apply is1_iff].
    + destruct ci as [c|]; cbn [metg met always_met].
      * intros [(M & _)|[(M & _)|[(M & _)|[(M & _)|[(M & _)|[(M & _)|[(_ & u & A & B)|(M & _)]]]]]]]; absurd_name. exists c, u. rewrite is1_iff. auto.
      * intros (M & _). absurd_name.
  - injection H as <-. rewrite is1_iff. destruct ci as [c|]; cbn [metg met always_met]; [|tauto]. split; [tauto|].
    intros [(M & _)|[(M & _)|[(M & _)|[(M & _)|[(M & _)|[(M & _)|[(M & _)|(_ & A)]]]]]]]; absurd_name. exact A.
Qed.

Lemma crit_name : forall ci n a b, crit E ci n a = Some b -> In (map tolower n) attr_names.
Proof.
  intros ci n a b H. unfold crit in H.
  destruct (strcaseeq n (bs "user")) eqn:N1; [|destruct (strcaseeq n (bs "group")) eqn:N2; [|destruct (strcaseeq n (bs "host")) eqn:N3;
    [|destruct (strcaseeq n (bs "address")) eqn:N4; [|destruct (strcaseeq n (bs "localaddress")) eqn:N5; [|destruct (strcaseeq n (bs "localport")) eqn:N6;
    [|destruct (strcaseeq n (bs "rdomain")) eqn:N7; [|destruct (strcaseeq n (bs "version")) eqn:N8; [|discriminate]]]]]]]];
  match goal with X : strcaseeq n _ = true |- _ => apply strcaseeq_iff in X; rename X into N end; clear -N; rewrite N; cbn; tauto.
Qed.
Lemma invalid_met : forall ci, (match ci with None => false | Some c => ci_user_invalid c end = true) <-> metg ci CInvalidUser.
Proof. intros [c|]; cbn [metg met always_met]; [reflexivity|]. split; [discriminate|contradiction]. Qed.
Lemma attr_eq_some : forall w n a, attr_eq w = Some (n, a) <-> w = n ++ 61 :: a /\ ~ In 61 n /\ In (map tolower n) attr_names.
Proof.
  intros w n a. unfold attr_eq. assert (L : forall n, existsb (strcaseeq n) attr_names = true <-> In (map tolower n) attr_names).
  { intros x. rewrite existsb_exists. split.
    - intros (y & A & B). apply strcaseeq_iff in B. unfold attr_names in *. cbn [In] in *. repeat (destruct A as [<-|A]; [rewrite B; cbn; tauto|]). destruct A.
    - intros A. exists (map tolower x). split; [exact A|]. apply strcaseeq_iff. unfold attr_names in A. cbn [In] in A.
      repeat (destruct A as [<-|A]; [reflexivity|]). destruct A. }
  pose proof (strchr_cut_spec 61 w) as C. destruct (strchr_cut 61 w) as [[n' a']|] eqn:Q.
  - destruct C as [C1 C2]. destruct (existsb (strcaseeq n') attr_names) eqn:X.
    + apply L in X. split; [intros [= <- <-]; auto|]. intros (A & B & D). subst w. rewrite A, strchr_cut_first in Q by exact B. congruence.
    + split; [discriminate|]. intros (A & B & D). subst w. rewrite A, strchr_cut_first in Q by exact B. injection Q as -> ->. apply L in D. congruence.
  - split; [discriminate|]. intros (A & B & D). exfalso. apply C. rewrite A. apply in_or_app. right. now left.
Qed.
Lemma not_61 : forall w s, spelled w s -> ~ In 61 (bs s) -> ~ In 61 w.
Proof. intros w s H N A. apply N. rewrite <- H. now apply in_lower. Qed.
Lemma met_name : forall ci n a, metg ci (CAttr n a) -> In (map tolower n) attr_names.
Proof.
  intros [c|] n a; cbn [metg met always_met].
  - intros [(M & _)|[(M & _)|[(M & _)|[(M & _)|[(M & _)|[(M & _)|[(M & _)|(M & _)]]]]]]]; unfold spelled in M; rewrite M; cbn; tauto.
  - intros (M & _); unfold spelled in M; rewrite M; cbn; tauto.
Qed.
Lemma match_loop_some : forall ci ws n result b left_over, match_loop E ci ws n result = Some (b, left_over) -> is_nil left_over = true ->
  match n with
  | O => result = true -> (b = true <-> exists cs, criteria ws cs /\ Forall (metg ci) cs)
  | S _ => b = true <-> result = true /\ exists cs, sequence ws cs /\ Forall (metg ci) cs
  end.
Proof.
  intros ci ws. remember (length ws) as len eqn:LE. assert (LE' : (length ws <= len)%nat) by lia. clear LE. revert ws LE'.
  assert (X35 : forall w s, spelled w s -> bs s <> [] -> hd 0 (bs s) <> 35 -> starts_hash w = false).
  { intros [|c w] s H N D; [reflexivity|]. cbn [starts_hash]. apply Z.eqb_neq. intros ->. apply D. rewrite <- H. reflexivity. }
  induction len as [|len IH]; intros ws LE n result b lo H LO.
  { destruct ws; [|cbn in LE; lia]. cbn [match_loop] in H. destruct n; [discriminate|]. injection H as <- <-. split; [intros A; split; [exact A|]; exists []; split; constructor|tauto]. }
  destruct ws as [|w r]; cbn [match_loop] in H.
  { destruct n; [discriminate|]. injection H as <- <-. split; [intros A; split; [exact A|]; exists []; split; constructor|tauto]. }
  destruct (starts_hash w) eqn:SH.
  { destruct n; [discriminate|]. injection H as <- <-. split; [|tauto]. intros A; split; [exact A|]. exists []. split; [|constructor].
    destruct w as [|c w]; [discriminate|]. cbn [starts_hash] in SH. apply Z.eqb_eq in SH. subst c. constructor. }
  destruct (strcaseeq w (bs "all")) eqn:AL.
  { apply name_is in AL; [|reflexivity]. destruct n; [|discriminate]. intros _.
    assert (K : forall bb, bb = true -> (r = [] \/ r = [[]] \/ exists c r', r = (35 :: c) :: r') -> (bb = true <-> exists cs, criteria (w :: r) cs /\ Forall (metg ci) cs)).
    { intros bb B D. split; [|auto]. intros _. exists [CAll]. split; [now apply k_all|]. constructor; [|constructor]. destruct ci; exact I. }
    destruct r as [|a r']; [injection H as <- <-; now apply K; auto|]. destruct (is_nil a) eqn:NA.
    - injection H as <- <-. destruct r'; [|discriminate]. destruct a; [|discriminate]. apply K; auto.
    - destruct (starts_hash a) eqn:SA; [|discriminate]. injection H as <- <-. apply K; auto. right; right. destruct a as [|c a]; [discriminate|]. cbn in SA. apply Z.eqb_eq in SA. subst c. eauto. }
  assert (NAL : ~ spelled w "all") by (intros A; apply name_is in A; [congruence|reflexivity]).
  assert (KEY : forall r' bb, (length r' <= len)%nat -> match_loop E ci r' (S n) bb = Some (b, lo) ->
     forall k, (bb = true <-> result = true /\ metg ci k) -> (forall cs, sequence r' cs -> sequence (w :: r) (k :: cs)) ->
     (forall cs, sequence (w :: r) cs -> Forall (metg ci) cs -> exists cs', cs = k :: cs' /\ sequence r' cs') ->
     match n with
     | O => result = true -> (b = true <-> exists cs, criteria (w :: r) cs /\ Forall (metg ci) cs)
     | S _ => b = true <-> result = true /\ exists cs, sequence (w :: r) cs /\ Forall (metg ci) cs
     end).
  { intros r' bb LR HL k BB MK INV. pose proof (IH r' LR (S n) bb b lo HL LO) as J. cbv beta iota in J.
    assert (CORE : b = true <-> result = true /\ exists cs, sequence (w :: r) cs /\ Forall (metg ci) cs).
    { rewrite J, BB. split.
      - intros ((A & B) & cs & C & D). split; [exact A|]. exists (k :: cs). split; [now apply MK|now constructor].
      - intros (A & cs & C & D). destruct (INV cs C D) as (cs' & -> & C'). inversion D as [|? ? D1 D2]; subst. split; [auto|]. eauto. }
    destruct n; [|exact CORE]. intros RT. rewrite CORE. split.
    - intros (_ & cs & A & B). exists cs. split; [|exact B]. apply k_seq; [exact A|]. destruct (INV cs A B) as (cs' & -> & _). discriminate.
    - intros (cs & A & B). split; [exact RT|]. inversion A as [w0 r0 A1 A2 Q1 Q2|ws0 cs0 A1 A2 Q1 Q2]; subst; [contradiction|]. eauto. }
  destruct (strcaseeq w (bs "invalid-user")) eqn:IU.
  { apply name_is in IU; [|reflexivity]. apply (KEY r _ ltac:(cbn in LE; lia) H CInvalidUser).
    - rewrite <- invalid_met. destruct ci as [c|]; [destruct (ci_user_invalid c)|]; split; try tauto; try discriminate; intros [_ A]; discriminate.
    - intros cs A. now constructor.
    - intros cs A B. inversion A as [|c0 r0 Q1 Q2|w0 r0 cs0 A1 A2 Q1 Q2|n0 a0 r0 cs0 A1 A2 A3 A4 Q1 Q2|n0 a0 r0 cs0 A1 A2 A3 Q1 Q2]; subst.
      + exfalso. cbn in SH. discriminate.
      + eauto.
      + exfalso. apply (not_61 _ _ IU); [cbn; lia|]. apply in_or_app. right. now left.
      + exfalso. inversion B as [|? ? B1 B2]; subst. apply met_name in B1. unfold spelled in IU. rewrite IU in B1. cbn in B1.
        repeat (destruct B1 as [B1|B1]; [discriminate B1|]). destruct B1. }
  assert (NIU : ~ spelled w "invalid-user") by (intros A; apply name_is in A; [congruence|reflexivity]).
  destruct (attr_eq w) as [[n0 arg]|] eqn:AE.
  { destruct (is_nil arg || starts_hash arg) eqn:NA; [discriminate|]. apply orb_false_iff in NA. destruct NA as [NA NS].
    destruct (crit E ci n0 arg) as [v|] eqn:CR; [|discriminate]. apply attr_eq_some in AE. destruct AE as (-> & AE1 & AE2).
    apply (KEY r _ ltac:(cbn in LE; lia) H (CAttr n0 arg)).
    - rewrite <- (crit_some _ _ _ _ CR). destruct v; split; try tauto; try discriminate; intros [_ A]; discriminate.
    - intros cs A. constructor; auto. destruct arg; discriminate.
    - intros cs A B. inversion A as [|c1 r1 Q1 Q2|w1 r1 cs1 A1 A2 Q1 Q2|n1 a1 r1 cs1 A1 A2 A3 A4 Q1 Q2|n1 a1 r1 cs1 A1 A2 A3 Q1 Q2]; subst.
      + exfalso. rewrite <- Q1 in SH. cbn in SH. discriminate.
      + contradiction.
      + pose proof (strchr_cut_first 61 n1 a1 A1) as X. rewrite Q1, (strchr_cut_first 61 n0 arg AE1) in X. injection X as <- <-. eauto.
      + exfalso. apply A2. apply in_or_app. right. now left. }
  destruct r as [|arg r']; [discriminate|]. destruct (is_nil arg || starts_hash arg) eqn:NA; [discriminate|]. apply orb_false_iff in NA. destruct NA as [NA NS].
  destruct (crit E ci w arg) as [v|] eqn:CR; [|discriminate].
  assert (N61 : (exists bt, crit E ci w arg = Some bt) -> ~ In 61 w).
  { intros (bt & X) Y. apply crit_name in X. apply in_lower in Y. clear -X Y. unfold attr_names in X. cbn [In] in X.
    repeat (destruct X as [X|X]; [rewrite <- X in Y; cbn in Y; lia|]). destruct X. }
  specialize (N61 (ex_intro _ v CR)).
  apply (KEY r' _ ltac:(cbn in LE; lia) H (CAttr w arg)).
  - rewrite <- (crit_some _ _ _ _ CR). destruct v; split; try tauto; try discriminate; intros [_ A]; discriminate.
  - intros cs A. constructor; auto. destruct arg; discriminate.
  - intros cs A B. inversion A as [|c1 r1 Q1 Q2|w1 r1 cs1 A1 A2 Q1 Q2|n1 a1 r1 cs1 A1 A2 A3 A4 Q1 Q2|n1 a1 r1 cs1 A1 A2 A3 Q1 Q2]; subst.
    + exfalso. cbn in SH. discriminate.
    + contradiction.
    + exfalso. apply N61. apply in_or_app. right. now left.
    + eauto.
Qed.
Definition Hld (ci : option conn) (m : cond) : Prop := match ci with Some c => holds_for E c m | None => holds_always E m end.
Lemma match_line : forall ci ws b lo, match_cfg_line E ci ws = Some (b, lo) -> is_nil lo = true -> (b = true <-> Hld ci ws).
Proof.
  intros ci ws b lo H L. pose proof (match_loop_some ci ws 0 true b lo H L eq_refl) as X. cbv beta iota in X. rewrite X.
  unfold Hld, holds_for, holds_always, metg. destruct ci; reflexivity.
Qed.
End Refine.
