(** What a log line means.  Nothing here refers to the model. *)
From Coq Require Import String.
From Verif Require Import Base.
Local Open Scope Z_scope.

Definition printable (b : Z) : Prop := 32 <= b <= 126.

(** Letters after a backslash. *)
Inductive letter : Z -> Z -> Prop :=
| let_a : letter 97 7
| let_b : letter 98 8
| let_t : letter 116 9
| let_n : letter 110 10
| let_v : letter 118 11
| let_f : letter 102 12
| let_r : letter 114 13.

(** [reads t m]: the text [t] stands for the bytes [m]. *)
Inductive reads : list Z -> list Z -> Prop :=
| rd_nil : reads [] []
| rd_plain : forall c t m, printable c -> c <> 92 -> reads t m -> reads (c :: t) (c :: m)
| rd_slash : forall t m, reads t m -> reads (92 :: 92 :: t) (92 :: m)
| rd_letter : forall l c t m, letter l c -> reads t m -> reads (92 :: l :: t) (c :: m)
| rd_octal : forall x y z t m, 48 <= x <= 51 -> 48 <= y <= 55 -> 48 <= z <= 55 -> reads t m ->
    reads (92 :: x :: y :: z :: t) (64 * (x - 48) + 8 * (y - 48) + (z - 48) :: m).

(** The character classes of the locale agree with ASCII on ASCII. *)
Definition ascii_classes (isgraph iscntrl : Z -> bool) : Prop :=
  forall c, 0 <= c < 128 ->
    (isgraph c = true <-> 33 <= c <= 126) /\ (iscntrl c = true <-> c < 32 \/ c = 127).

(** A C string: bytes other than NUL. *)
Definition c_string (s : list Z) : Prop := Forall (fun b => 1 <= b <= 255) s.

(** [p] is the beginning of [l]. *)
Definition begins (p l : list Z) : Prop := exists r, l = p ++ r.
