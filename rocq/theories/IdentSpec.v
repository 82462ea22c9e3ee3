(** Vocabulary for C86: identification strings (RFC 4253, section 4.2). *)
From Coq Require Import String.
From Verif Require Import Base Text.
Local Open Scope Z_scope.

(** Text of a line: no NUL, newline, carriage return; at most 8192 bytes *)
Definition line_text (l : list Z) : Prop := Forall (fun c => c <> 0 /\ c <> 10 /\ c <> 13) l /\ zlen l <= 8192.
(** A line as it is sent: its text, carriage returns, a newline *)
Definition line (l t : list Z) : Prop := line_text l /\ exists k, t = l ++ repeat 13 k ++ [10].
(** It identifies an SSH implementation *)
Definition identifies (l : list Z) : Prop := exists x, x <> [] /\ l = bs "SSH-" ++ x.
(** What a client skips before the identification *)
Inductive preamble : nat -> list Z -> Prop :=
| pr_nil : preamble 0 []
| pr_line : forall n l t r, line l t -> ~ identifies l -> preamble n r -> preamble (S n) (t ++ r).
