(** Vocabulary for C24. *)
From Verif Require Import Base StrictModel.

(** The messages a side of the exchange is waiting for between KEXINIT (20) and
    NEWKEYS (21): RFC 4253 section 8, RFC 5656 section 4, RFC 4419 section 3
    (group exchange). *)
Definition awaited (server gex : bool) : list Z :=
  match server, gex with
  | false, false => [31]
  | false, true => [31; 33]
  | true, false => [30]
  | true, true => [34; 32]
  end.

(** A first key exchange in strict order: KEXINIT comes first, then (only if the
    KEXINIT announced a guess that turned out wrong) one message that is thrown
    away, then the awaited messages, in order and nothing else, then NEWKEYS. *)
Definition in_order (server : bool) (l : list msg) : Prop :=
  exists ki guess rest,
    l = ki :: guess ++ rest /\ m_ty ki = 20 /\
    length guess = (if m_wrong_guess ki then 1%nat else 0%nat) /\
    map m_ty rest = awaited server (m_gex ki) ++ [21].

Definition prefix {A} (a b : list A) : Prop := exists c, b = a ++ c.
