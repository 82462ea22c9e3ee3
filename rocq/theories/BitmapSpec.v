(** What a bitmap is supposed to be: a finite set of bit numbers.  The set is
    given as a number N >= 0 of any size: bit number n is a member when bit n of
    N is one.  Nothing here knows about words. *)
From Verif Require Import Base BitmapModel.

Definition member (n : Z) (N : Z) : Prop := Z.testbit N n = true.
(** The arguments C can pass: unsigned int bit numbers, byte strings. *)
Definition arg_ok (o : bop) : Prop :=
  match o with
  | BSet n _ | BClear n | BTest n => 0 <= n < U32
  | BToString p => is_bytes p /\ zlen p < U64
  | BFromString s _ => is_bytes s /\ zlen s < U64
  | _ => True
  end.
(** The number of bits up to and including the highest member. *)
Definition size_of (N : Z) : Z := if N =? 0 then 0 else Z.log2 N + 1.
Definition bytes_of (N : Z) : Z := (size_of N + 7) / 8.

(** [spec_step N o r N']: from the set N, operation o may answer r and leave N'. *)
Definition spec_step (N : Z) (o : bop) (r : bout) (N' : Z) : Prop :=
  match o with
  | BSet n aok =>
      (n <= 16777216 /\ r = OInt 0 /\ N' = Z.setbit N n) \/
      ((16777216 < n \/ aok = false) /\ r = OInt (-1) /\ N' = N)
  | BClear n => r = OVoid /\ N' = Z.clearbit N n
  | BTest n => r = OInt (if Z.testbit N n then 1 else 0) /\ N' = N
  | BZero => r = OVoid /\ N' = 0
  | BNbits => r = OInt (size_of N) /\ N' = N
  | BNbytes => r = OInt (bytes_of N) /\ N' = N
  | BToString p =>
      N' = N /\
      if zlen p <? bytes_of N then r = OBytes (-1) p
      else r = OBytes 0 (be_enc (Z.to_nat (bytes_of N)) N ++ zdrop (bytes_of N) p)
  | BFromString s aok =>
      (zlen s <= 2097152 /\ r = OInt 0 /\ N' = be_dec s) \/
      ((2097152 < zlen s \/ aok = false) /\ r = OInt (-1) /\ N' = N)
  end.
Fixpoint spec_run (N : Z) (os : list bop) (rs : list bout) (N' : Z) : Prop :=
  match os, rs with
  | [], [] => N' = N
  | o :: os', r :: rs' => exists N1, spec_step N o r N1 /\ spec_run N1 os' rs' N'
  | _, _ => False
  end.
