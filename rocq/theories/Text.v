(** Shared text helpers: splitting at a separator (strsep), joining, case. *)
From Coq Require Import String.
From Verif Require Import Base.

(** All the fields of a text separated by [c]; always at least one field.  This
    is what repeated calls of strsep(&p, "c") return. *)
Fixpoint split (c : Z) (l : list Z) : list (list Z) :=
  match l with
  | [] => [[]]
  | x :: r => if x =? c then [] :: split c r
              else match split c r with
                   | [] => [[x]]
                   | f :: fs => (x :: f) :: fs
                   end
  end.
Fixpoint join (c : Z) (l : list (list Z)) : list Z :=
  match l with
  | [] => []
  | [f] => f
  | f :: fs => f ++ c :: join c fs
  end.
Definition COMMA : Z := 44.

(** isupper, tolower in the C locale. *)
Definition isupper (c : Z) : bool := (65 <=? c) && (c <=? 90).
Definition tolower (c : Z) : Z := if isupper c then c + 32 else c.
Definition is_nil {A} (l : list A) : bool := match l with [] => true | _ => false end.

Lemma split_cons : forall c l, exists f fs, split c l = f :: fs.
Proof.
  intros c l. induction l as [|x r (f & fs & IH)]; cbn; [eauto|]. destruct (x =? c); [eauto|]. rewrite IH. eauto.
Qed.
Lemma join_split : forall c l, join c (split c l) = l.
Proof.
  intros c l. induction l as [|x r IH]; [reflexivity|]. cbn [split].
  destruct (split_cons c r) as (f & fs & E). rewrite E in IH.
  destruct (x =? c) eqn:Ex.
  - rewrite E. assert (x = c) by lia. subst x. change (join c ([] :: f :: fs)) with (c :: join c (f :: fs)). now rewrite IH.
  - rewrite E. destruct fs; cbn [join app] in *; now f_equal.
Qed.
Definition free_of (c : Z) (f : list Z) : Prop := ~ In c f.
Lemma split_free : forall c l, Forall (free_of c) (split c l).
Proof.
  intros c l. induction l as [|x r IH]; cbn [split]; [repeat constructor; intros []|].
  destruct (x =? c) eqn:Ex; [constructor; [intros []|assumption]|].
  destruct (split c r) as [|f fs]; [constructor; [|constructor]|].
  - intros [H|[]]. lia.
  - inversion IH; subst. constructor; [|assumption]. intros [H|H]; [lia|contradiction].
Qed.
Lemma split_app : forall c f r, free_of c f -> split c (f ++ c :: r) = f :: split c r.
Proof.
  intros c f r H. induction f as [|x f IH]; cbn [app split]; [now rewrite Z.eqb_refl|].
  destruct (x =? c) eqn:E; [exfalso; apply H; left; lia|]. rewrite IH; [reflexivity|]. intros Hi. apply H. now right.
Qed.
Lemma split_single : forall c f, free_of c f -> split c f = [f].
Proof.
  intros c f H. induction f as [|x f IH]; cbn [split]; [reflexivity|].
  destruct (x =? c) eqn:E; [exfalso; apply H; left; lia|]. rewrite IH; [reflexivity|]. intros Hi. apply H. now right.
Qed.
Lemma split_join : forall c l, l <> [] -> Forall (free_of c) l -> split c (join c l) = l.
Proof.
  intros c l Hn H. induction H as [|f fs Hf Hfs IH]; [congruence|].
  destruct fs as [|g fs]; cbn [join]; [now apply split_single|].
  rewrite split_app by assumption. f_equal. apply IH. discriminate.
Qed.
Lemma join_app : forall c a b, a <> [] -> b <> [] -> join c (a ++ b) = join c a ++ c :: join c b.
Proof.
  intros c a b Ha Hb. induction a as [|f a IH]; [congruence|].
  destruct a as [|g a].
  - cbn [app join]. destruct b; [congruence|]. reflexivity.
  - change (join c ((f :: g :: a) ++ b)) with (f ++ c :: join c ((g :: a) ++ b)).
    change (join c (f :: g :: a)) with (f ++ c :: join c (g :: a)).
    rewrite IH by discriminate. now rewrite <- app_assoc.
Qed.
