(** Poly1305 as specified (RFC 8439, 2.5): arithmetic modulo 2^130 - 5 on
    unbounded integers.  Nothing here refers to the model. *)
From Verif Require Import Base.

(** Little-endian numbers. *)
Fixpoint le (l : list Z) : Z :=
  match l with
  | [] => 0
  | b :: r => b + 256 * le r
  end.
Fixpoint le_bytes (n : nat) (v : Z) : list Z :=
  match n with
  | O => []
  | S k => v mod 256 :: le_bytes k (v / 256)
  end.

Definition P1305 : Z := 2 ^ 130 - 5.

(** The multiplier: the first half of the key with some bits cleared. *)
Definition poly_r (key : list Z) : Z := Z.land (le (ztake 16 key)) 0x0ffffffc0ffffffc0ffffffc0fffffff.
Definition poly_s (key : list Z) : Z := le (ztake 16 (zdrop 16 key)).

(** The message as blocks of sixteen bytes, the last one shorter. *)
Inductive cut16 : list Z -> list (list Z) -> Prop :=
| cut_none : cut16 [] []
| cut_last : forall m, 0 < zlen m < 16 -> cut16 m [m]
| cut_more : forall b m bl, zlen b = 16 -> cut16 m bl -> cut16 (b ++ m) (b :: bl).

(** Each block counts as a number with a one bit appended. *)
Definition poly_sum (r : Z) (bl : list (list Z)) : Z :=
  fold_left (fun acc b => ((acc + le (b ++ [1])) * r) mod P1305) bl 0.

(** [t] is the tag of [m] under [key]. *)
Definition poly_tag (key m t : list Z) : Prop :=
  exists bl, cut16 m bl /\ t = le_bytes 16 (poly_sum (poly_r key) bl + poly_s key).
