(** What a buffer is supposed to be: a bounded queue of bytes.  This file does
    not mention offsets, allocation or memory. *)
From Verif Require Import Base SshbufModel.

Record queue := mkQ { q : list Z; qmax : Z; qwritable : bool }.

Definition with_q (s : queue) (l : list Z) := mkQ l (qmax s) (qwritable s).
Definition with_max (s : queue) (m : Z) := mkQ (q s) m (qwritable s).

(** Result of trying to append [v]: it is appended exactly when the queue is
    writable and the result fits (unless the allocator fails); otherwise
    nothing changes. *)
Definition appended (aok : bool) (v : list Z) (s : queue) (r : res rv) (s' : queue) : Prop :=
  if qwritable s && (zlen (q s) + zlen v <=? qmax s) then
    (r = ROk VUnit /\ s' = with_q s (q s ++ v)) \/
    (r = RErr SSH_ERR_ALLOC_FAIL /\ aok = false /\ s' = s)
  else
    (r = RErr SSH_ERR_NO_BUFFER_SPACE \/ (qwritable s = false /\ r = RErr SSH_ERR_BUFFER_READ_ONLY))
    /\ s' = s.

(** Wire encodings. *)
Definition enc_string (v : list Z) : list Z := be_enc 4 (zlen v) ++ v.
Definition mpint_body (v : list Z) : list Z :=
  let s := strip0 v in if msb s then 0 :: s else s.
Definition enc_mpint (v : list Z) : list Z := enc_string (mpint_body v).

(** Wire decodings: value and remaining bytes, or an error code. *)
Definition dec_string (l : list Z) : res (list Z * list Z) :=
  if zlen l <? 4 then RErr SSH_ERR_MESSAGE_INCOMPLETE else
  let n := be_dec (ztake 4 l) in
  let body := zdrop 4 l in
  if SSHBUF_SIZE_MAX - 4 <? n then RErr SSH_ERR_STRING_TOO_LARGE else
  if zlen body <? n then RErr SSH_ERR_MESSAGE_INCOMPLETE else
  ROk (ztake n body, zdrop n body).

(** A C string may have one NUL, at its very end. *)
Definition nul_ok (v : list Z) : bool :=
  match find_nul v with Some z => zlen v - 1 <=? z | None => true end.
Definition dec_cstring (l : list Z) : res (list Z * list Z) :=
  match dec_string l with
  | RErr e => RErr e
  | ROk (v, rest) => if nul_ok v then ROk (v, rest) else RErr SSH_ERR_INVALID_FORMAT
  end.
Definition dec_mpint (l : list Z) : res (list Z * list Z) :=
  match dec_string l with
  | RErr e => RErr e
  | ROk (v, rest) =>
      if msb v then RErr SSH_ERR_BIGNUM_IS_NEGATIVE else
      if (SSHBUF_MAX_BIGNUM + 1 <? zlen v) ||
         ((zlen v =? SSHBUF_MAX_BIGNUM + 1) && negb (hd 0 v =? 0))
      then RErr SSH_ERR_BIGNUM_TOO_LARGE
      else ROk (strip0 v, rest)
  end.

(** Result of a read that removes a decoded value. *)
Definition decoded (aok : bool) (d : res (list Z * list Z)) (s : queue) (r : res rv) (s' : queue) : Prop :=
  match d with
  | RErr e => r = RErr e /\ s' = s
  | ROk (v, rest) =>
      if aok then r = ROk (VBytes v) /\ s' = with_q s rest
      (* the result could not be allocated: the bytes are gone all the same *)
      else r = RErr SSH_ERR_ALLOC_FAIL /\ s' = with_q s rest
  end.

Definition qstep (o : op) (s : queue) (r : res rv) (s' : queue) : Prop :=
  match o with
  | OPut a v => appended a v s r s'
  | OReserve a n => exists junk, zlen junk = n /\ appended a junk s r s'
  | OPutf a v =>
      (* one byte more than the text is needed, for the formatter's NUL *)
      if zlen v =? 0 then r = ROk VUnit /\ s' = s
      else if qwritable s && (zlen (q s) + zlen v + 1 <=? qmax s)
      then appended a v s r s'
      else (exists e, r = RErr e) /\ s' = s
  | OPutInt a w v => appended a (be_enc w v) s r s'
  | OPutString a v => appended a (enc_string v) s r s'
  | OPutBignum a v =>
      if SSHBUF_SIZE_MAX - 5 <? zlen v
      then r = RErr SSH_ERR_NO_BUFFER_SPACE /\ s' = s
      else appended a (enc_mpint v) s r s'
  | OPoke i v =>
      if qwritable s && (i + zlen v <=? zlen (q s))
      then r = ROk VUnit /\ s' = with_q s (ztake i (q s) ++ v ++ zdrop (i + zlen v) (q s))
      else (exists e, r = RErr e) /\ s' = s
  | OGet n =>
      if n <=? zlen (q s) then r = ROk (VBytes (ztake n (q s))) /\ s' = with_q s (zdrop n (q s))
      else r = RErr SSH_ERR_MESSAGE_INCOMPLETE /\ s' = s
  | OGetInt w =>
      if Z.of_nat w <=? zlen (q s)
      then r = ROk (VInt (be_dec (ztake (Z.of_nat w) (q s)))) /\ s' = with_q s (zdrop (Z.of_nat w) (q s))
      else r = RErr SSH_ERR_MESSAGE_INCOMPLETE /\ s' = s
  | OPeekInt w i =>
      s' = s /\
      if i + Z.of_nat w <=? zlen (q s)
      then r = ROk (VInt (be_dec (ztake (Z.of_nat w) (zdrop i (q s)))))
      else exists e, r = RErr e
  | OGetString a => decoded a (dec_string (q s)) s r s'
  | OGetCstring a => decoded a (dec_cstring (q s)) s r s'
  | OGetBignum => decoded true (dec_mpint (q s)) s r s'
  | OConsume n =>
      if n <=? zlen (q s) then r = ROk VUnit /\ s' = with_q s (zdrop n (q s))
      else r = RErr SSH_ERR_MESSAGE_INCOMPLETE /\ s' = s
  | OConsumeEnd n =>
      if n <=? zlen (q s) then r = ROk VUnit /\ s' = with_q s (ztake (zlen (q s) - n) (q s))
      else r = RErr SSH_ERR_MESSAGE_INCOMPLETE /\ s' = s
  | OReset _ => r = ROk VUnit /\ s' = with_q s []
  | OSetMax _ m =>
      (* on success the new limit holds; on failure nothing visible changes *)
      (r = ROk VUnit /\ zlen (q s) <= m <= SSHBUF_SIZE_MAX /\ s' = with_max s m) \/
      ((exists e, r = RErr e) /\ s' = s)
  | OLen => r = ROk (VInt (zlen (q s))) /\ s' = s
  | OAvail => r = ROk (VInt (if qwritable s then qmax s - zlen (q s) else 0)) /\ s' = s
  | OCheckReserve n =>
      s' = s /\
      if qwritable s && (zlen (q s) + n <=? qmax s) then r = ROk VUnit else exists e, r = RErr e
  end.

(** A history of calls with their results is explained by the queue. *)
Inductive qrun : list op -> queue -> list (res rv) -> queue -> Prop :=
| qrun_nil : forall s, qrun [] s [] s
| qrun_cons : forall o l s r s1 rs s',
    qstep o s r s1 -> qrun l s1 rs s' -> qrun (o :: l) s (r :: rs) s'.

(** Arguments a C caller can pass: bytes, size_t values, int sizes 1,2,4,8. *)
Definition op_ok (o : op) : Prop :=
  match o with
  | OPut _ v | OPutString _ v | OPutBignum _ v => is_bytes v /\ zlen v <= SIZE_MAX
  | OPutf _ v => is_bytes v /\ zlen v <= 2147483646
  | OReserve _ n | OGet n | OConsume n | OConsumeEnd n | OSetMax _ n | OCheckReserve n =>
      0 <= n <= SIZE_MAX
  | OPutInt _ w _ | OGetInt w => w = 1%nat \/ w = 2%nat \/ w = 4%nat \/ w = 8%nat
  | OPeekInt w i => (w = 1%nat \/ w = 2%nat \/ w = 4%nat \/ w = 8%nat) /\ 0 <= i <= SIZE_MAX
  | OPoke i v => is_bytes v /\ 0 <= i <= SIZE_MAX /\ zlen v <= SIZE_MAX
  | _ => True
  end.

(** ** First in, first out *)

(** Bytes a call put at the end, and bytes a call took from the front, judged
    from its arguments and result alone. *)
Definition wrote (o : op) (r : res rv) : list Z :=
  match r with
  | RErr _ => []
  | ROk _ =>
      match o with
      | OPut _ v | OPutf _ v => v
      | OPutInt _ w x => be_enc w x
      | OPutString _ v => enc_string v
      | _ => []
      end
  end.
Definition took (o : op) (r : res rv) : list Z :=
  match o, r with
  | OGet _, ROk (VBytes v) => v
  | OGetInt w, ROk (VInt x) => be_enc w x
  | OGetString _, ROk (VBytes v) => enc_string v
  | _, _ => []
  end.
Fixpoint flow (f : op -> res rv -> list Z) (l : list op) (rs : list (res rv)) : list Z :=
  match l, rs with
  | o :: l', r :: rs' => f o r ++ flow f l' rs'
  | _, _ => []
  end.
(** Calls whose effect on the stream is visible in arguments and results. *)
Definition fifo_op (o : op) : Prop :=
  match o with
  | OPut _ _ | OPutf _ _ | OPutInt _ _ _ | OPutString _ _ | OGet _ | OGetInt _ | OGetString true
  | OPeekInt _ _ | OSetMax _ _ | OLen | OAvail | OCheckReserve _ => True
  | _ => False
  end.

(** The limit in force after a history: the last one successfully set. *)
Fixpoint limit_after (l : list op) (rs : list (res rv)) (m : Z) : Z :=
  match l, rs with
  | OSetMax _ m' :: l', ROk _ :: rs' => limit_after l' rs' m'
  | _ :: l', _ :: rs' => limit_after l' rs' m
  | _, _ => m
  end.

(** Histories for which the memory-safety theorem holds: no call lowers the
    limit below the initial allocation (256 bytes), or no call resets. *)
Definition keeps_limit (o : op) : Prop :=
  match o with OSetMax _ m => 256 <= m | _ => True end.
Definition no_reset (o : op) : Prop :=
  match o with OReset _ => False | _ => True end.
Definition safe_history (l : list op) : Prop :=
  Forall op_ok l /\ (Forall keeps_limit l \/ Forall no_reset l).

(** Buffers a program can hold: a new one, or a read-only view of some memory,
    after any safe history of calls. *)
Definition start (b : sbuf) : Prop :=
  b = sshbuf_new \/ exists blob, is_bytes blob /\ sshbuf_from blob = Some b.
Definition reachable (b : sbuf) : Prop :=
  exists b0 l rs, start b0 /\ safe_history l /\ run_ops l b0 = Some (rs, b).
(** The abstract queue a buffer starts as. *)
Definition queue_of (b : sbuf) : queue := mkQ (contents b) (max_size b) (negb (shared b)).
