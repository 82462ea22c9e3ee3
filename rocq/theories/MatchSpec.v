(** What wildcard patterns, pattern lists and name lists mean. *)
From Coq Require Import String.
From Verif Require Import Base Text.

(** [glob p s]: pattern p covers the whole of s. *)
Inductive glob : list Z -> list Z -> Prop :=
| glob_end : glob [] []
| glob_star : forall p skipped s, glob p s -> glob (42 :: p) (skipped ++ s)      (* '*' *)
| glob_any : forall p x s, glob p s -> glob (63 :: p) (x :: s)                    (* '?' *)
| glob_char : forall p x s, x <> 42 -> x <> 63 -> glob p s -> glob (x :: p) (x :: s).

(** The entries of a comma-separated pattern list; nothing follows a final comma. *)
Fixpoint drop_last_empty (l : list (list Z)) : list (list Z) :=
  match l with
  | [] => []
  | [f] => if is_nil f then [] else [f]
  | f :: r => f :: drop_last_empty r
  end.
Definition entries (p : list Z) : list (list Z) := drop_last_empty (split 44 p).

(** One entry: its sign and its pattern. *)
Definition negative (e : list Z) : bool := match e with c :: _ => c =? 33 | [] => false end.  (* '!' *)
Definition body (e : list Z) : list Z := if negative e then tl e else e.
Definition fold_case (dolower : bool) (e : list Z) : list Z := if dolower then map tolower e else e.
Definition covers (dolower : bool) (s e : list Z) : Prop := glob (fold_case dolower (body e)) s.
(** Longest pattern the list matcher handles. *)
Definition fits (e : list Z) : Prop := (length (body e) < 1023)%nat.

Definition some_negative (dolower : bool) (s : list Z) (es : list (list Z)) : Prop :=
  exists e, In e es /\ negative e = true /\ covers dolower s e.
Definition some_positive (dolower : bool) (s : list Z) (es : list (list Z)) : Prop :=
  exists e, In e es /\ negative e = false /\ covers dolower s e.

(** The names of a comma-separated list: an empty name ends it. *)
Fixpoint names_of (fs : list (list Z)) : list (list Z) :=
  match fs with
  | [] => []
  | [] :: _ => []
  | f :: r => f :: names_of r
  end.
Definition names (l : list Z) : list (list Z) := names_of (split 44 l).

(** [n] is the first member of [cl] that is in [sv]. *)
Definition first_common (cl sv : list (list Z)) (n : list Z) : Prop :=
  exists a b, cl = a ++ n :: b /\ In n sv /\ forall x, In x a -> ~ In x sv.
