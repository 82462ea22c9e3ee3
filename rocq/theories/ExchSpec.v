(** Specification for C79: what RFC 4253 section 8, RFC 4419, RFC 5656 and RFC 8731
    say is hashed, and when a Diffie-Hellman value is acceptable. *)
From Verif Require Import Base SshbufModel SshbufSpec KeyModel.
Local Open Scope Z_scope.

(** What both sides say and hear before and in the exchange: the two version lines,
    the two KEXINIT payloads, the host key. *)
Record opening := mkOp { op_cv : list Z; op_sv : list Z; op_ci : list Z; op_si : list Z; op_hk : list Z }.
(** V_C, V_S, I_C, I_S, K_S as strings; the KEXINIT messages start with their type 20 *)
Definition opening_bytes (t : opening) : list Z :=
  enc_string (op_cv t) ++ enc_string (op_sv t) ++ enc_string (20 :: op_ci t) ++ enc_string (20 :: op_si t) ++ enc_string (op_hk t).
(** The hash input of RFC 4253 section 8: then e, f (Q_C, Q_S) as strings and the
    encoded secret *)
Definition hashed_gen (t : opening) (cp sp k : list Z) : list Z :=
  opening_bytes t ++ enc_string cp ++ enc_string sp ++ k.
(** A non-negative number as an mpint (RFC 4251 section 5): no unnecessary bytes in
    front, and the top bit clear. *)
Definition minimal (b : list Z) : Prop :=
  match b with
  | [] => True
  | [c] => 0 < c < 128
  | c :: d :: _ => c < 128 /\ (c = 0 -> 128 <= d)
  end.
Definition number (w : list Z) (z : Z) : Prop := exists b, w = enc_string b /\ is_bytes b /\ minimal b /\ be_dec b = z.
(** The hash input of RFC 4419 section 3: min, n, max, p, g, e, f, the encoded secret *)
Definition hashed_gex (t : opening) (min n max p g e f : Z) (k b : list Z) : Prop :=
  exists wp wg we wf, b = opening_bytes t ++ be_enc 4 min ++ be_enc 4 n ++ be_enc 4 max ++ wp ++ wg ++ we ++ wf ++ k /\
  number wp p /\ number wg g /\ number we e /\ number wf f.

(** At least four of the bits are ones. *)
Definition four_ones (z : Z) : Prop :=
  exists a b c d, 0 <= a < b /\ b < c < d /\ Z.testbit z a = true /\ Z.testbit z b = true /\ Z.testbit z c = true /\ Z.testbit z d = true.
(** A public value that is not one of the trivial ones *)
Definition sound_value (p v : Z) : Prop := 1 < v < p - 1 /\ four_ones v.
(** A number of [n] bits *)
Definition of_size (p n : Z) : Prop := 0 < n /\ 2 ^ (n - 1) <= p < 2 ^ n.
