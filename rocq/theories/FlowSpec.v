(** Vocabulary for C22 and C23. *)
From Verif Require Import Base PacketModel FlowModel.

(** RFC 4253 section 7.1: what may be sent during a key exchange: transport
    layer generic messages (1 to 19) except SERVICE_REQUEST, SERVICE_ACCEPT (and
    EXT_INFO, RFC 8308), negotiation and method messages (20 to 49). *)
Definition transport (ty : Z) : Prop := 1 <= ty <= 49 /\ ty <> 5 /\ ty <> 6 /\ ty <> 7.

(** Types on the wire, oldest first; [closed] says that a key exchange is going
    on.  Between KEXINIT (20) and NEWKEYS (21) only transport messages pass. *)
Fixpoint quiet (closed : bool) (types : list Z) : Prop :=
  match types with
  | [] => True
  | ty :: r => (closed = true -> transport ty) /\ quiet (if ty =? 20 then true else if ty =? 21 then false else closed) r
  end.
(** Whether an exchange is going on after the given packets. *)
Definition closed_after (closed : bool) (types : list Z) : bool :=
  fold_left (fun c ty => if ty =? 20 then true else if ty =? 21 then false else c) types closed.

(** Messages other than transport messages. *)
Definition ordinary (m : Z * list Z) : bool :=
  negb ((1 <=? fst m) && (fst m <=? 49) && negb (fst m =? 5) && negb (fst m =? 6) && negb (fst m =? 7)).
(** The messages the program asked to send. *)
Fixpoint submitted (es : list event) : list (Z * list Z) :=
  match es with
  | [] => []
  | ESend ty pl :: r => (ty, pl) :: submitted r
  | _ :: r => submitted r
  end.

(** Keys are identified by their encryption key bytes; [None] is the unprotected
    start of a connection. *)
Definition key_id (ok : option keys) : option (list Z) := option_map k_enc ok.
(** Sequence numbers of the packets enciphered under one key, oldest first. *)
Definition under (id : option (list Z)) (log : list (option keys * Z * list Z)) : list Z :=
  flat_map (fun '(k, sq, _) => if (match key_id k, id with
                                   | None, None => true
                                   | Some a, Some b => beqb a b
                                   | _, _ => false
                                   end) then [sq] else []) log.
(** (key, sequence number) of every packet enciphered. *)
Definition nonces (log : list (option keys * Z * list Z)) : list (option (list Z) * Z) :=
  map (fun '(k, sq, _) => (key_id k, sq)) log.
(** n numbers counted up from [base], modulo 2^32. *)
Definition counting (base : Z) (n : nat) : list Z := map (fun j => u32 (base + Z.of_nat j)) (seq 0 n).

(** Keys produced by the key exchanges of a history, for sending. *)
Fixpoint produced (es : list event) : list (list Z) :=
  match es with
  | [] => []
  | ENewkeys o _ :: r => k_enc o :: produced r
  | _ :: r => produced r
  end.
Definition no_handover (es : list event) : Prop := ~ In EHandover es.
