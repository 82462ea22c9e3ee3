(** What number and time texts mean. *)
From Coq Require Import String.
From Verif Require Import Base.

(** A non-empty string of decimal digits and the number it denotes. *)
Inductive decimal : list Z -> Z -> Prop :=
| dec_one : forall d, 0 <= d <= 9 -> decimal [48 + d] d
| dec_more : forall s v d, decimal s v -> 0 <= d <= 9 -> decimal (s ++ [48 + d]) (10 * v + d).

(** A number as strtoll reads it: white space, a sign, digits. *)
Definition white (c : Z) : Prop := c = 32 \/ 9 <= c <= 13.
Definition numeral (s : list Z) (v : Z) : Prop :=
  exists ws ds n, Forall white ws /\ decimal ds n /\
    (s = ws ++ ds /\ v = n \/ s = ws ++ 43 :: ds /\ v = n \/ s = ws ++ 45 :: ds /\ v = - n).

(** A time interval: terms "digits unit", the last one possibly without unit. *)
Definition unit_of (c : Z) (m : Z) : Prop :=
  (In c (bs "sS") /\ m = 1) \/ (In c (bs "mM") /\ m = 60) \/ (In c (bs "hH") /\ m = 3600) \/
  (In c (bs "dD") /\ m = 86400) \/ (In c (bs "wW") /\ m = 604800).
Inductive interval : list Z -> Z -> Prop :=
| iv_plain : forall ds n, decimal ds n -> interval ds n
| iv_last : forall ds n c m, decimal ds n -> unit_of c m -> interval (ds ++ [c]) (n * m)
| iv_term : forall ds n c m s v, decimal ds n -> unit_of c m -> interval s v ->
    interval (ds ++ c :: s) (n * m + v).

(** Percent-encoding: what a text decodes to. *)
Definition hex_digit (c x : Z) : Prop :=
  (c = 48 + x /\ 0 <= x <= 9) \/ (c = 87 + x /\ 10 <= x <= 15) \/ (c = 55 + x /\ 10 <= x <= 15).
Inductive url : list Z -> list Z -> Prop :=
| url_nil : url [] []
| url_plus : forall s d, url s d -> url (43 :: s) (32 :: d)
| url_hex : forall a b x y s d, hex_digit a x -> hex_digit b y -> url s d -> url (37 :: a :: b :: s) (16 * x + y :: d)
| url_char : forall c s d, c <> 43 -> c <> 37 -> url s d -> url (c :: s) (c :: d).
