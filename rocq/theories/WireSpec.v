(** Wire values, independent of the way buffers are implemented. *)
From Verif Require Import Base SshbufModel SshbufSpec.

(** A typed field. *)
Inductive wval :=
| WInt (w : nat) (v : Z)        (* w-byte unsigned integer *)
| WStr (v : list Z)             (* length-prefixed string *)
| WCstr (v : list Z)            (* C string *)
| WMpint (v : list Z).          (* big integer, as its magnitude bytes *)

(** Values a field of each type can hold. *)
Definition wvalid (x : wval) : Prop :=
  match x with
  | WInt w v => (w = 1%nat \/ w = 2%nat \/ w = 4%nat \/ w = 8%nat) /\ 0 <= v < 256 ^ Z.of_nat w
  | WStr v => is_bytes v /\ zlen v <= 134217724
  | WCstr v => is_bytes v /\ zlen v <= 134217724 /\ ~ In 0 v
  | WMpint v => is_bytes v /\ zlen v <= 2048 /\ (forall r, v <> 0 :: r)
  end.

(** The API calls that write and read it, and the value the reader gets. *)
Definition put_op (x : wval) : op :=
  match x with
  | WInt w v => OPutInt true w v
  | WStr v | WCstr v => OPutString true v
  | WMpint v => OPutBignum true v
  end.
Definition get_op (x : wval) : op :=
  match x with
  | WInt w _ => OGetInt w
  | WStr _ => OGetString true
  | WCstr _ => OGetCstring true
  | WMpint _ => OGetBignum
  end.
Definition got (x : wval) : rv :=
  match x with
  | WInt _ v => VInt v
  | WStr v | WCstr v | WMpint v => VBytes v
  end.
(** The type of a field. *)
Definition shape (x : wval) : wval :=
  match x with
  | WInt w _ => WInt w 0
  | WStr _ => WStr []
  | WCstr _ => WCstr []
  | WMpint _ => WMpint []
  end.

(** Its encoding (RFC 4251 section 5). *)
Definition enc (x : wval) : list Z :=
  match x with
  | WInt w v => be_enc w v
  | WStr v | WCstr v => enc_string v
  | WMpint v => enc_mpint v
  end.

Definition all_ok (rs : list (res rv)) : Prop := Forall (fun r => exists x, r = ROk x) rs.

(** [body] is the shortest two's-complement form of the number [n >= 0]. *)
Definition minimal_mpint (n : Z) (body : list Z) : Prop :=
  is_bytes body /\ be_dec body = n /\
  (n = 0 -> body = []) /\
  (forall b r, body = b :: r -> b < 128) /\
  (forall r, body = 0 :: r -> exists c r', r = c :: r' /\ 128 <= c).

(** The value [x] was read off the front of [l], leaving [rest]. *)
Definition read_as (o : op) (x : rv) (l rest : list Z) : Prop :=
  match o, x with
  | OGetInt w, VInt v => 0 <= v < 256 ^ Z.of_nat w /\ l = be_enc w v ++ rest
  | OGetString _, VBytes v | OGetCstring _, VBytes v => l = be_enc 4 (zlen v) ++ v ++ rest
  | OGetBignum, VBytes v =>
      (exists k, l = be_enc 4 (Z.of_nat k + zlen v) ++ repeat 0 k ++ v ++ rest) /\ (forall r, v <> 0 :: r)
  | _, _ => False
  end.
Definition is_get (o : op) : Prop :=
  match o with
  | OGetInt w => w = 1%nat \/ w = 2%nat \/ w = 4%nat \/ w = 8%nat
  | OGetString true | OGetCstring true | OGetBignum => True
  | _ => False
  end.
