(** How text is made safe to print.  Nothing here refers to the model. *)
From Coq Require Import String.
From Verif Require Import Base VisSpec.
Local Open Scope Z_scope.

(** A byte written as an escape. *)
Definition escaped (b : Z) : list Z :=
  if b =? 92 then [92; 92] else [92; 48 + b / 64; 48 + (b / 8) mod 8; 48 + b mod 8].

(** One unit of output: its bytes, the columns it takes, and the bytes and
    columns that must be free for it (four for every escape). *)
Record item := mkI { it_bytes : list Z; it_cols : Z; it_need : Z; it_wneed : Z }.
Definition char_item (p : list Z) (w : Z) : item := mkI p w (zlen p) w.
Definition esc_item (b : Z) : item := mkI (escaped b) (zlen (escaped b)) 4 4.

Definition text (l : list item) : list Z := concat (map it_bytes l).
Fixpoint sum (f : item -> Z) (l : list item) : Z :=
  match l with [] => 0 | x :: r => f x + sum f r end.

Section Spec.
(** The decoder (by number of the call), the widths, and whether line breaks
    and tabs are let through. *)
Variable dec : nat -> list Z -> option (Z * Z).
Variable width : Z -> Z.
Variable lines : bool.

Definition line_char (wc : Z) : Prop := lines = true /\ (wc = 10 \/ wc = 13 \/ wc = 9).

(** [renders n src items]: decoding [src] from call [n] on gives [items]. *)
Inductive renders : nat -> list Z -> list item -> Prop :=
| re_end : forall n, renders n [] []
| re_line : forall n p rest wc l, dec n (p ++ rest) = Some (wc, zlen p) -> p <> [] -> line_char wc ->
    renders (S n) rest l -> renders n (p ++ rest) (char_item p 0 :: l)
| re_char : forall n p rest wc l, dec n (p ++ rest) = Some (wc, zlen p) -> p <> [] -> ~ line_char wc -> 0 <= width wc ->
    renders (S n) rest l -> renders n (p ++ rest) (char_item p (width wc) :: l)
| re_hidden : forall n p rest wc l, dec n (p ++ rest) = Some (wc, zlen p) -> p <> [] -> ~ line_char wc -> width wc < 0 ->
    renders (S n) rest l -> renders n (p ++ rest) (map esc_item p ++ l)
| re_bad : forall n b rest l, dec n (b :: rest) = None ->
    renders (S (S n)) rest l -> renders n (b :: rest) (esc_item b :: l).

(** What is known of the library: a character has at least one byte, lies
    within the string and has at most 16 bytes (MB_LEN_MAX); widths are at
    least -1. *)
Definition sane : Prop :=
  (forall n s wc len, s <> [] -> dec n s = Some (wc, len) -> 1 <= len <= zlen s /\ len <= 16) /\
  (forall wc, -1 <= width wc <= 2147483647).
End Spec.

(** A decoder without state that gives every printable ASCII byte its own
    meaning, and for which the bytes of a character determine it. *)
Definition plain_decoder (d : list Z -> option (Z * Z)) : Prop :=
  (forall b r, printable b -> d (b :: r) = Some (b, 1)) /\
  (forall p r r' wc, p <> [] -> d (p ++ r) = Some (wc, zlen p) -> d (p ++ r') = Some (wc, zlen p)).

(** [decodes d s l]: [s] is the text of the wide characters [l]. *)
Inductive decodes (d : list Z -> option (Z * Z)) : list Z -> list Z -> Prop :=
| de_nil : decodes d [] []
| de_char : forall p r wc l, p <> [] -> d (p ++ r) = Some (wc, zlen p) -> decodes d r l -> decodes d (p ++ r) (wc :: l).

(** UTF-8 (RFC 3629). *)
Definition cont (b : Z) : bool := (128 <=? b) && (b <=? 191).
Definition utf8 (s : list Z) : option (Z * Z) :=
  match s with
  | [] => None
  | a :: r =>
      if a <? 128 then Some (a, 1)
      else match r with
      | [] => None
      | b :: r =>
          if (194 <=? a) && (a <=? 223) then (if cont b then Some (64 * (a - 192) + (b - 128), 2) else None)
          else match r with
          | [] => None
          | c :: r =>
              if (224 <=? a) && (a <=? 239) then
                (if cont b && cont c && ((a >? 224) || (b >=? 160)) && (negb (a =? 237) || (b <? 160))
                 then Some (4096 * (a - 224) + 64 * (b - 128) + (c - 128), 3) else None)
              else match r with
              | [] => None
              | e :: _ =>
                  if (240 <=? a) && (a <=? 244) && cont b && cont c && cont e && ((a >? 240) || (b >=? 144)) && ((a <? 244) || (b <? 144))
                  then Some (262144 * (a - 240) + 4096 * (b - 128) + 64 * (c - 128) + (e - 128), 4) else None
              end
          end
      end
  end.

(** Control characters: C0, DEL, C1. *)
Definition control (wc : Z) : Prop := 0 <= wc < 32 \/ 127 <= wc < 160.
