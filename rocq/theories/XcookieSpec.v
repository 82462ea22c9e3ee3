(** Vocabulary for C82: X11 cookies. *)
From Verif Require Import Base MiscNumModel MiscNumSpec XcookieModel.
Local Open Scope Z_scope.

(** A length in the byte order that the first byte names: B, most significant first;
    l, least significant first *)
Inductive length_field : Z -> Z -> list Z -> Prop :=
| lf_msb : forall n h l, 0 <= h < 256 -> 0 <= l < 256 -> n = 256 * h + l -> length_field 66 n [h; l]
| lf_lsb : forall n h l, 0 <= h < 256 -> 0 <= l < 256 -> n = 256 * h + l -> length_field 108 n [l; h].
(** Filler up to a multiple of four *)
Definition filler (d p : list Z) : Prop := zlen p < 4 /\ exists k, zlen d + zlen p = 4 * k.
(** The first packet of an X11 client, without the cookie: what stands before and
    after it *)
Definition around (proto cookie before after : list Z) : Prop :=
  exists order v w lp ld p1 p2, length_field order (zlen proto) lp /\ length_field order (zlen cookie) ld /\ zlen v = 5 /\ zlen w = 2 /\
    filler proto p1 /\ filler cookie p2 /\
    before = [order] ++ v ++ lp ++ ld ++ w ++ proto ++ p1 /\ after = p2.
(** No deadline, or all of it happens before *)
Definition in_time (c : xcfg) (es : list (Z * list Z)) : Prop := x_deadline c = 0 \/ Forall (fun e => fst e < x_deadline c) es.
(** All that was received *)
Definition received (es : list (Z * list Z)) : list Z := concat (map snd es).

(** The hexadecimal form of a byte string *)
Inductive hexes : list Z -> list Z -> Prop :=
| hexes_nil : hexes [] []
| hexes_cons : forall c r a b t, hex_digit a (c / 16) -> hex_digit b (c mod 16) -> hexes r t -> hexes (c :: r) (a :: b :: t).
(** The same request but for the digits of the cookie *)
Definition same_but_cookie (a b : xreq) : Prop :=
  r_disp a = r_disp b /\ r_proto a = r_proto b /\ zlen (r_data a) = zlen (r_data b) /\ r_rnd a = r_rnd b.
(** arc4random_buf fills what it is asked to fill *)
Definition fills (q : xreq) : Prop := forall n, 0 <= n -> zlen (r_rnd q n) = n /\ is_bytes (r_rnd q n).
