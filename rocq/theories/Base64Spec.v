(** What base64 is (RFC 4648 section 4), in terms of bits and independent of the
    code: the bits of the bytes, most significant first, are cut into groups of
    six (the last filled up with zero bits), each group is written as a letter,
    and '=' fills the text up to a multiple of four. *)
From Coq Require Import String.
From Verif Require Import Base.

(** The [n] low bits of [v], most significant first, and back. *)
Fixpoint bits (n : nat) (v : Z) : list bool :=
  match n with O => [] | S k => Z.testbit v (Z.of_nat k) :: bits k v end.
Fixpoint value (l : list bool) : Z :=
  match l with [] => 0 | b :: r => (if b then 2 ^ zlen r else 0) + value r end.

Fixpoint sextets (l : list bool) : list Z :=
  match l with
  | a :: b :: c :: d :: e :: f :: r => value [a; b; c; d; e; f] :: sextets r
  | [] => []
  | _ => [value (firstn 6 (l ++ repeat false 6))]
  end.

Definition alphabet : list Z :=
  bs "ABCDEFGHIJKLMNOPQRSTUVWXYZabcdefghijklmnopqrstuvwxyz0123456789+/".
Definition letter (v : Z) : Z := nth (Z.to_nat v) alphabet 0.
Definition pads (n : Z) : list Z :=
  if n mod 3 =? 0 then [] else if n mod 3 =? 1 then bs "==" else bs "=".

Definition base64 (d : list Z) : list Z :=
  map letter (sextets (flat_map (bits 8) d)) ++ pads (zlen d).

(** White space, and a text without it *)
Definition white (c : Z) : bool :=
  existsb (Z.eqb c) [9; 10; 11; 12; 13; 32].
Definition squeeze (t : list Z) : list Z := filter (fun c => negb (white c)) t.

(** The URL-safe variant (RFC 4648 section 5) without padding *)
Definition url_alphabet : list Z :=
  bs "ABCDEFGHIJKLMNOPQRSTUVWXYZabcdefghijklmnopqrstuvwxyz0123456789-_".
Definition base64url (d : list Z) : list Z :=
  map (fun v => nth (Z.to_nat v) url_alphabet 0) (sextets (flat_map (bits 8) d)).

(** [folded col s t]: [t] is [s] written in lines of 70 characters, each ended by
    a newline, when [col] characters stand on the current line already. *)
Inductive folded : Z -> list Z -> list Z -> Prop :=
| folded_done : folded 0 [] []
| folded_end : forall col, 0 < col < 70 -> folded col [] [10]
| folded_char : forall col c s t, 0 <= col < 69 -> folded (col + 1) s t -> folded col (c :: s) (c :: t)
| folded_full : forall c s t, folded 0 s t -> folded 69 (c :: s) (c :: 10 :: t).
