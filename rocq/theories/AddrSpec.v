(** Network addresses as integers, prefixes, and what an address list means. *)
From Coq Require Import String.
From Verif Require Import Base Text MatchSpec MiscNumSpec AddrModel.

Definition width (af : family) : Z := match af with INET => 32 | INET6 => 128 end.
Definition word_value (ws : list Z) : Z := fold_left (fun acc w => acc * 4294967296 + w) ws 0.
(** The address as an integer below 2^width. *)
Definition value (a : xaddr) : Z := match x_af a with INET => hd 0 (x_words a) | INET6 => word_value (x_words a) end.
(** Addresses as getaddrinfo delivers them: four words of 32 bits. *)
Definition wf (a : xaddr) : Prop := length (x_words a) = 4%nat /\ Forall (fun w => 0 <= w < 4294967296) (x_words a).
(** Interface scopes exist for IPv6 only. *)
Definition same_scope (a b : xaddr) : Prop := x_af a = INET6 -> x_scope a = x_scope b.

(** The leading [l] bits of an address, and the remaining host bits. *)
Definition leading (a : xaddr) (l : Z) : Z := value a / 2 ^ (width (x_af a) - l).
Definition host_bits (a : xaddr) (l : Z) : Z := value a mod 2 ^ (width (x_af a) - l).
Definition in_network (host net : xaddr) (l : Z) : Prop :=
  x_af host = x_af net /\ 0 <= l <= width (x_af net) /\ leading host l = leading net l /\ same_scope host net.

(** How a CIDR text reads: "address" or "address/length". *)
Definition reads (pton : list Z -> option xaddr) (p : list Z) (a : xaddr) (l : Z) : Prop :=
  zlen p < 64 /\
  (~ In 47 p /\ pton p = Some a /\ l = width (x_af a) \/
   exists t m, p = t ++ 47 :: m /\ ~ In 47 t /\ pton t = Some a /\ numeral m l /\ 0 <= l <= 2147483647).
(** A consistent one: no more bits than the family has, no host bits set. *)
Definition consistent (a : xaddr) (l : Z) : Prop := l <= width (x_af a) /\ host_bits a l = 0.

(** List entries: sign, pattern; which are invalid; when one matches. *)
Definition invalid_entry (pton : list Z -> option xaddr) (e : list Z) : Prop :=
  body e = [] \/ exists a l, reads pton (body e) a l /\ ~ consistent a l.
Definition entry_matches (pton : list Z -> option xaddr) (text : list Z) (x : xaddr) (e : list Z) : Prop :=
  (exists a l, reads pton (body e) a l /\ consistent a l /\ in_network x a l) \/
  ((forall a l, ~ reads pton (body e) a l) /\ glob (body e) text).
