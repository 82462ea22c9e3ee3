(** What editing an algorithm list should do, on lists of names. *)
From Coq Require Import String.
From Verif Require Import Base Text MatchSpec.

(** A proper list of names: no empty name, no comma, no repetition. *)
Definition name_list (l : list (list Z)) : Prop :=
  Forall (fun f => f <> [] /\ ~ In 44 f) l /\ NoDup l.
(** A literal name: no wildcard, not negated, within the pattern length limit. *)
Definition literal (n : list Z) : Prop :=
  ~ In 42 n /\ ~ In 63 n /\ negative n = false /\ (length n < 1023)%nat.

(** Append the names not there yet, in order. *)
Fixpoint add_new (l new : list (list Z)) : list (list Z) :=
  match new with
  | [] => l
  | n :: r => if existsb (beqb n) l then add_new l r else add_new (l ++ [n]) r
  end.

(** [picks all p sel]: sel are the members of [all] that pattern p covers, in order. *)
Inductive picks : list (list Z) -> list Z -> list (list Z) -> Prop :=
| picks_nil : forall p, picks [] p []
| picks_yes : forall a r p sel, glob p a -> fits p -> picks r p sel -> picks (a :: r) p (a :: sel)
| picks_no : forall a r p sel, (~ glob p a \/ ~ fits p) -> picks r p sel -> picks (a :: r) p sel.

(** The names selected from [all] by a list of patterns, first come first. *)
Inductive selects (all : list (list Z)) : list (list Z) -> list (list Z) -> list (list Z) -> Prop :=
| sel_nil : forall acc, selects all acc [] acc
| sel_cons : forall acc p ps sel out, picks all p sel -> selects all (add_new acc sel) ps out ->
    selects all acc (p :: ps) out.
