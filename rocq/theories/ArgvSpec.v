(** Command lines and the arguments they denote. *)
From Coq Require Import String.
From Verif Require Import Base.

(** Characters a backslash protects: quotes and backslash; a space as well
    outside quotes. *)
Definition protects (quoted : bool) (d : Z) : Prop := In d [39; 34; 92] \/ quoted = false /\ d = 32.
Definition starts (P : Z -> Prop) (s : list Z) : Prop := match s with c :: _ => P c | [] => False end.
Definition blank_char (c : Z) : Prop := c = 32 \/ c = 9.

(** [inside q s w rest]: after an opening quote q, the text s contributes w up to
    the closing quote, which is followed by rest. *)
Inductive inside (q : Z) : list Z -> list Z -> list Z -> Prop :=
| in_close : forall r, inside q (q :: r) [] r
| in_escape : forall d s w r, protects true d -> inside q s w r -> inside q (92 :: d :: s) (d :: w) r
| in_backslash : forall s w r, ~ starts (protects true) s -> inside q s w r -> inside q (92 :: s) (92 :: w) r
| in_char : forall c s w r, c <> q -> c <> 92 -> inside q s w r -> inside q (c :: s) (c :: w) r.

(** [word s w rest]: the text s begins with a word denoting w; rest is empty or
    starts with a blank. *)
Inductive word : list Z -> list Z -> list Z -> Prop :=
| w_end : forall r, (r = [] \/ starts blank_char r) -> word r [] r
| w_escape : forall d s w r, protects false d -> word s w r -> word (92 :: d :: s) (d :: w) r
| w_backslash : forall s w r, ~ starts (protects false) s -> word s w r -> word (92 :: s) (92 :: w) r
| w_quote : forall q s w1 r1 w2 r, In q [34; 39] -> inside q s w1 r1 -> word r1 w2 r -> word (q :: s) (w1 ++ w2) r
| w_char : forall c s w r, ~ In c [92; 32; 9; 34; 39] -> word s w r -> word (c :: s) (c :: w) r.

(** A whole line; with [comment], an unquoted word-initial # ends it. *)
Inductive line (comment : bool) : list Z -> list (list Z) -> Prop :=
| l_end : line comment [] []
| l_blank : forall c s ws, blank_char c -> line comment s ws -> line comment (c :: s) ws
| l_comment : forall s, comment = true -> line comment (35 :: s) []
| l_word : forall c s w r ws, ~ blank_char c -> (comment = true -> c <> 35) ->
    word (c :: s) w r -> line comment r ws -> line comment (c :: s) (w :: ws).
