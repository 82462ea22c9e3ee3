(** Executable model of struct sshbuf: sshbuf.c, sshbuf.h and
    sshbuf-getput-basic.c.

    The backing memory of a buffer is an explicit list of bytes; pointers into
    it are integer positions.  Every memory access goes through [mem_read],
    [mem_write] or [mem_move], which yield the distinct outcome
    [Fault FOutOfBounds] when the range is not inside the allocation.  A failed
    consistency check (raise(SIGSEGV) in the C code) is [Fault FSanity].
    size_t arithmetic is written with the wrap modulo 2^64 ([u64]).
    Allocation may fail: the operations that allocate take a flag [aok] saying
    whether the allocator delivers. *)
From Verif Require Import Base.

(** Constants: sshbuf.h 32-35 and 372-374. *)
Definition SSHBUF_SIZE_MAX : Z := 134217728.  (* 0x8000000 *)
Definition SSHBUF_REFS_MAX : Z := 1048576.    (* 0x100000 *)
Definition SSHBUF_MAX_BIGNUM : Z := 2048.     (* 16384 / 8 *)
Definition SSHBUF_SIZE_INIT : Z := 256.
Definition SSHBUF_SIZE_INC : Z := 256.
Definition SSHBUF_PACK_MIN : Z := 8192.

(** Error codes: ssherr.h 24-80. *)
Definition SSH_ERR_INTERNAL_ERROR : Z := -1.
Definition SSH_ERR_ALLOC_FAIL : Z := -2.
Definition SSH_ERR_MESSAGE_INCOMPLETE : Z := -3.
Definition SSH_ERR_INVALID_FORMAT : Z := -4.
Definition SSH_ERR_BIGNUM_IS_NEGATIVE : Z := -5.
Definition SSH_ERR_STRING_TOO_LARGE : Z := -6.
Definition SSH_ERR_BIGNUM_TOO_LARGE : Z := -7.
Definition SSH_ERR_NO_BUFFER_SPACE : Z := -9.
Definition SSH_ERR_INVALID_ARGUMENT : Z := -10.
Definition SSH_ERR_BUFFER_READ_ONLY : Z := -49.

(** struct sshbuf, sshbuf.c 42-52.  [dat] is the memory behind d/cd (for a
    read-only buffer, the external blob behind cd).  The parent pointer is not
    here; see SshbufHeapModel. *)
Record sbuf := mkSbuf {
  dat : list Z;
  off : Z;
  size : Z;
  max_size : Z;
  alloc : Z;
  readonly : bool;
  refcount : Z
}.

Definition set_dat b v := mkSbuf v (off b) (size b) (max_size b) (alloc b) (readonly b) (refcount b).
Definition set_off b v := mkSbuf (dat b) v (size b) (max_size b) (alloc b) (readonly b) (refcount b).
Definition set_size b v := mkSbuf (dat b) (off b) v (max_size b) (alloc b) (readonly b) (refcount b).
Definition set_max b v := mkSbuf (dat b) (off b) (size b) v (alloc b) (readonly b) (refcount b).
Definition set_alloc b v := mkSbuf (dat b) (off b) (size b) (max_size b) v (readonly b) (refcount b).

Inductive fault := FSanity | FOutOfBounds.
Inductive res (A : Type) := ROk (a : A) | RErr (code : Z).
Arguments ROk {A} a. Arguments RErr {A} code.
(** Outcome of a call: a return value together with the buffer afterwards, or
    a fault. *)
Inductive out (A : Type) := Ret (r : res A) (b : sbuf) | Fault (f : fault).
Arguments Ret {A} r b. Arguments Fault {A} f.

Definition M (A : Type) := sbuf -> out A.
Definition mret {A} (a : A) : M A := fun b => Ret (ROk a) b.
Definition merr {A} (e : Z) : M A := fun b => Ret (RErr e) b.
(** [if ((r = m) != 0) return r; ...] *)
Definition mbind {A B} (m : M A) (k : A -> M B) : M B := fun b =>
  match m b with
  | Fault f => Fault f
  | Ret (RErr e) b' => Ret (RErr e) b'
  | Ret (ROk a) b' => k a b'
  end.
Notation "'do' x <- m ;; k" := (mbind m (fun x => k)) (at level 200, x name, k at level 200).
Notation "'run' m ;; k" := (mbind m (fun _ => k)) (at level 200, k at level 200).

(** Checked memory accesses on the backing memory. *)
Definition mem_read (pos n : Z) : M (list Z) := fun b =>
  if (0 <=? pos) && (0 <=? n) && (pos + n <=? zlen (dat b))
  then Ret (ROk (ztake n (zdrop pos (dat b)))) b else Fault FOutOfBounds.
Definition mem_write (pos : Z) (v : list Z) : M unit := fun b =>
  if (0 <=? pos) && (pos + zlen v <=? zlen (dat b))
  then Ret (ROk tt) (set_dat b (ztake pos (dat b) ++ v ++ zdrop (pos + zlen v) (dat b)))
  else Fault FOutOfBounds.

(** recallocarray(d, oldalloc, newalloc, 1): contents preserved up to the
    smaller size, fresh memory zeroed.  openbsd-compat/recallocarray.c. *)
Definition recalloc (d : list Z) (newlen : Z) : list Z :=
  ztake newlen d ++ repeat 0 (Z.to_nat (newlen - zlen d)).

(** sshbuf_check_sanity, sshbuf.c 54-74.  The pointer comparisons (buf NULL,
    d != cd, cd NULL, parent == buf) hold by construction here. *)
Definition sanity (b : sbuf) : bool :=
  negb ((refcount b <? 1) || (SSHBUF_REFS_MAX <? refcount b) ||
        (SSHBUF_SIZE_MAX <? max_size b) ||
        (max_size b <? alloc b) ||
        (alloc b <? size b) ||
        (size b <? off b)).
Definition check_sanity : M unit := fun b =>
  if sanity b then Ret (ROk tt) b else Fault FSanity.

(** [buf->readonly || buf->refcount > 1] *)
Definition shared (b : sbuf) : bool := readonly b || (1 <? refcount b).

(** sshbuf_maybe_pack, sshbuf.c 76-90. memmove(d, d+off, size-off). *)
Definition maybe_pack (force : bool) : M unit := fun b =>
  if (off b =? 0) || shared b then Ret (ROk tt) b
  else if force || ((SSHBUF_PACK_MIN <=? off b) && (size b / 2 <=? off b)) then
    (do v <- mem_read (off b) (u64 (size b - off b)) ;;
     run mem_write 0 v ;;
     fun b' => Ret (ROk tt) (set_off (set_size b' (u64 (size b' - off b'))) 0)) b
  else Ret (ROk tt) b.

(** sshbuf_new, sshbuf.c 92-109. *)
Definition sshbuf_new : sbuf :=
  mkSbuf (repeat 0 (Z.to_nat SSHBUF_SIZE_INIT)) 0 0 SSHBUF_SIZE_MAX SSHBUF_SIZE_INIT false 1.

(** sshbuf_from, sshbuf.c 111-126. *)
Definition sshbuf_from (blob : list Z) : option sbuf :=
  if SSHBUF_SIZE_MAX <? zlen blob then None
  else Some (mkSbuf blob 0 (zlen blob) (zlen blob) (zlen blob) true 1).

(** sshbuf_reset, sshbuf.c 195-216. *)
Definition sshbuf_reset (aok : bool) : M unit := fun b =>
  if shared b then Ret (ROk tt) (set_off b (size b))
  else if negb (sanity b) then Fault FSanity
  else
    let b1 := set_size (set_off b 0) 0 in
    let b2 := if negb (alloc b1 =? SSHBUF_SIZE_INIT) && aok
              then set_alloc (set_dat b1 (recalloc (dat b1) SSHBUF_SIZE_INIT)) SSHBUF_SIZE_INIT
              else b1 in
    (* explicit_bzero(buf->d, buf->alloc) *)
    mem_write 0 (repeat 0 (Z.to_nat (alloc b2))) b2.

(** ROUNDUP, misc.h 252, in size_t arithmetic. *)
Definition roundup (x y : Z) : Z := u64 ((u64 (x + (y - 1)) / y) * y).

(** sshbuf_set_max_size, sshbuf.c 242-278. *)
Definition sshbuf_set_max_size (aok : bool) (m : Z) : M unit := fun b =>
  (run check_sanity ;;
   fun b => if m =? max_size b then Ret (ROk tt) b
   else if shared b then Ret (RErr SSH_ERR_BUFFER_READ_ONLY) b
   else if SSHBUF_SIZE_MAX <? m then Ret (RErr SSH_ERR_NO_BUFFER_SPACE) b
   else
   (run maybe_pack (m <? size b) ;;
    run (fun b =>
      if (m <? alloc b) && (size b <? m) then
        let rlen0 := if size b <? SSHBUF_SIZE_INIT then SSHBUF_SIZE_INIT
                     else roundup (size b) SSHBUF_SIZE_INC in
        let rlen := if m <? rlen0 then m else rlen0 in
        if negb aok then Ret (RErr SSH_ERR_ALLOC_FAIL) b
        else Ret (ROk tt) (set_alloc (set_dat b (recalloc (dat b) rlen)) rlen)
      else Ret (ROk tt) b) ;;
    fun b => if m <? alloc b then Ret (RErr SSH_ERR_NO_BUFFER_SPACE) b
             else Ret (ROk tt) (set_max b m)) b) b.

(** sshbuf_len, sshbuf.c 280-286. *)
Definition sshbuf_len : M Z :=
  run check_sanity ;; fun b => Ret (ROk (u64 (size b - off b))) b.

(** sshbuf_avail, sshbuf.c 288-294. *)
Definition sshbuf_avail : M Z :=
  run check_sanity ;; fun b =>
  if shared b then Ret (ROk 0) b
  else Ret (ROk (u64 (max_size b - u64 (size b - off b)))) b.

(** sshbuf_ptr, sshbuf.c 296-302: position of the first readable byte. *)
Definition sshbuf_ptr : M Z :=
  run check_sanity ;; fun b => Ret (ROk (off b)) b.

(** sshbuf_check_reserve, sshbuf.c 312-326. *)
Definition sshbuf_check_reserve (len : Z) : M unit :=
  run check_sanity ;; fun b =>
  if shared b then Ret (RErr SSH_ERR_BUFFER_READ_ONLY) b
  else if (max_size b <? len) || (u64 (max_size b - len) <? u64 (size b - off b))
  then Ret (RErr SSH_ERR_NO_BUFFER_SPACE) b
  else Ret (ROk tt) b.

(** sshbuf_allocate, sshbuf.c 328-369. *)
Definition sshbuf_allocate (aok : bool) (len : Z) : M unit :=
  run sshbuf_check_reserve len ;;
  run (fun b => maybe_pack (max_size b <? u64 (size b + len)) b) ;;
  fun b =>
  if u64 (len + size b) <=? alloc b then Ret (ROk tt) b
  else
    let need := u64 (u64 (len + size b) - alloc b) in
    let rlen0 := roundup (u64 (alloc b + need)) SSHBUF_SIZE_INC in
    let rlen := if max_size b <? rlen0 then u64 (alloc b + need) else rlen0 in
    if negb aok then Ret (RErr SSH_ERR_ALLOC_FAIL) b
    else sshbuf_check_reserve len (set_alloc (set_dat b (recalloc (dat b) rlen)) rlen).

(** sshbuf_reserve, sshbuf.c 371-389: returns the position of the new space. *)
Definition sshbuf_reserve (aok : bool) (len : Z) : M Z :=
  run sshbuf_allocate aok len ;; fun b =>
  Ret (ROk (size b)) (set_size b (u64 (size b + len))).

(** sshbuf_consume, sshbuf.c 391-409. *)
Definition sshbuf_consume (len : Z) : M unit :=
  run check_sanity ;;
  if len =? 0 then mret tt else
  do l <- sshbuf_len ;;
  if l <? len then merr SSH_ERR_MESSAGE_INCOMPLETE else
  fun b =>
  let b1 := set_off b (u64 (off b + len)) in
  Ret (ROk tt) (if off b1 =? size b1 then set_size (set_off b1 0) 0 else b1).

(** sshbuf_consume_end, sshbuf.c 411-426. *)
Definition sshbuf_consume_end (len : Z) : M unit :=
  run check_sanity ;;
  if len =? 0 then mret tt else
  do l <- sshbuf_len ;;
  if l <? len then merr SSH_ERR_MESSAGE_INCOMPLETE else
  fun b => Ret (ROk tt) (set_size b (u64 (size b - len))).

(** ** sshbuf-getput-basic.c *)

(** sshbuf_get, lines 34-45. *)
Definition sshbuf_get (len : Z) : M (list Z) :=
  do p <- sshbuf_ptr ;;
  run sshbuf_consume len ;;
  if len =? 0 then mret [] else mem_read p len.

(** sshbuf_get_u64/u32/u16/u8, lines 47-97 ([w] = 8, 4, 2, 1), with PEEK_U64/32/16
    (sshbuf.h 304-320) as the big-endian value of the w bytes. *)
Definition sshbuf_get_int (w : nat) : M Z :=
  do p <- sshbuf_ptr ;;
  run sshbuf_consume (Z.of_nat w) ;;
  do v <- mem_read p (Z.of_nat w) ;;
  mret (be_dec v).

(** check_offset, lines 99-111. *)
Definition check_offset (wr : bool) (offset len : Z) : M unit :=
  run sshbuf_ptr ;;
  if u64 (SIZE_MAX - len) <=? offset then merr SSH_ERR_INVALID_ARGUMENT else
  do l <- sshbuf_len ;;
  if l <? u64 (offset + len)
  then merr (if wr then SSH_ERR_NO_BUFFER_SPACE else SSH_ERR_MESSAGE_INCOMPLETE)
  else mret tt.

(** sshbuf_peek_u64/u32/u16/u8 with check_roffset, lines 113-184. *)
Definition sshbuf_peek_int (w : nat) (offset : Z) : M Z :=
  run check_offset false offset (Z.of_nat w) ;;
  do p <- sshbuf_ptr ;;
  do v <- mem_read (p + offset) (Z.of_nat w) ;;
  mret (be_dec v).

(** sshbuf_peek_string_direct, lines 239-268: position and length. *)
Definition sshbuf_peek_string_direct : M (Z * Z) :=
  do p <- sshbuf_ptr ;;
  do l <- sshbuf_len ;;
  if l <? 4 then merr SSH_ERR_MESSAGE_INCOMPLETE else
  do h <- mem_read p 4 ;;
  let len := be_dec h in
  if SSHBUF_SIZE_MAX - 4 <? len then merr SSH_ERR_STRING_TOO_LARGE else
  do l2 <- sshbuf_len ;;
  if u64 (l2 - 4) <? len then merr SSH_ERR_MESSAGE_INCOMPLETE else
  mret (p + 4, len).

(** sshbuf_get_string_direct, lines 213-237: position and length. *)
Definition sshbuf_get_string_direct : M (Z * Z) :=
  do pl <- sshbuf_peek_string_direct ;;
  fun b => match sshbuf_consume (u64 (snd pl + 4)) b with
           | Ret (ROk _) b' => Ret (ROk pl) b'
           | Ret (RErr _) b' => Ret (RErr SSH_ERR_INTERNAL_ERROR) b'
           | Fault f => Fault f
           end.

(** sshbuf_get_string, lines 186-211.  When valp is given, malloc may fail
    after the bytes have been consumed. *)
Definition sshbuf_get_string (aok : bool) : M (list Z) :=
  do pl <- sshbuf_get_string_direct ;;
  if negb aok then merr SSH_ERR_ALLOC_FAIL else
  if snd pl =? 0 then mret [] else mem_read (fst pl) (snd pl).

(** memchr(p, 0, len) as an index. *)
Fixpoint find_nul (l : list Z) : option Z :=
  match l with
  | [] => None
  | b :: r => if b =? 0 then Some 0 else option_map Z.succ (find_nul r)
  end.

(** The C string stored in a NUL-terminated byte array: bytes before the first
    NUL. *)
Fixpoint cstr (l : list Z) : list Z :=
  match l with
  | [] => []
  | b :: r => if b =? 0 then [] else b :: cstr r
  end.

(** sshbuf_get_cstring, lines 270-303.  Returns the memory written to *valp
    without its final NUL (lenp bytes). *)
Definition sshbuf_get_cstring (aok : bool) : M (list Z) :=
  do pl <- sshbuf_peek_string_direct ;;
  do v <- (if 0 <? snd pl then mem_read (fst pl) (snd pl) else mret []) ;;
  let bad := match find_nul v with Some z => z <? snd pl - 1 | None => false end in
  if bad then merr SSH_ERR_INVALID_FORMAT else
  run (fun b => match sshbuf_get_string_direct b with
               | Ret (RErr _) b' => Ret (RErr (-1)) b'
               | o => o end) ;;
  if negb aok then merr SSH_ERR_ALLOC_FAIL else mret v.

(** sshbuf_put, lines 325-336. *)
Definition sshbuf_put (aok : bool) (v : list Z) : M unit :=
  do p <- sshbuf_reserve aok (zlen v) ;;
  if zlen v =? 0 then mret tt else mem_write p v.

(** sshbuf_put_u64/u32/u16/u8, lines 391-437, with POKE_U64/32/16 (sshbuf.h
    322-349). *)
Definition sshbuf_put_int (aok : bool) (w : nat) (val : Z) : M unit :=
  do p <- sshbuf_reserve aok (Z.of_nat w) ;;
  mem_write p (be_enc w val).

(** sshbuf_poke, sshbuf_poke_u64/u32/u16/u8 with check_woffset, lines 439-511.
    The value is given as the bytes to store. *)
Definition sshbuf_poke (offset : Z) (v : list Z) : M unit :=
  run check_offset true offset (zlen v) ;;
  run check_sanity ;;
  fun b => if shared b then Ret (RErr SSH_ERR_BUFFER_READ_ONLY) b
           else mem_write (off b + offset) v b.

(** sshbuf_put_string, lines 513-529 (put_cstring and put_stringb pass the
    bytes of their argument). *)
Definition sshbuf_put_string (aok : bool) (v : list Z) : M unit :=
  if SSHBUF_SIZE_MAX - 4 <? zlen v then merr SSH_ERR_NO_BUFFER_SPACE else
  do d <- sshbuf_reserve aok (u64 (zlen v + 4)) ;;
  run mem_write d (be_enc 4 (zlen v)) ;;
  if zlen v =? 0 then mret tt else mem_write (d + 4) v.

(** sshbuf_putfv, lines 358-389: [s] is what the format expands to. *)
Definition sshbuf_putf (aok : bool) (s : list Z) : M unit :=
  if zlen s =? 0 then mret tt else
  do p <- sshbuf_reserve aok (zlen s + 1) ;;
  run mem_write p (s ++ [0]) ;;
  sshbuf_consume_end 1.

(** Loop at lines 581-583: skip leading zero bytes. *)
Fixpoint strip0 (l : list Z) : list Z :=
  match l with
  | b :: r => if b =? 0 then strip0 r else l
  | [] => []
  end.

(** s[0] & 0x80 *)
Definition msb (l : list Z) : bool :=
  match l with b :: _ => 128 <=? b | [] => false end.

(** sshbuf_put_bignum2_bytes, lines 570-597. *)
Definition sshbuf_put_bignum2_bytes (aok : bool) (v : list Z) : M unit :=
  if SSHBUF_SIZE_MAX - 5 <? zlen v then merr SSH_ERR_NO_BUFFER_SPACE else
  let s := strip0 v in
  let prepend := if msb s then 1 else 0 in
  do d <- sshbuf_reserve aok (u64 (zlen s + 4 + prepend)) ;;
  run mem_write d (be_enc 4 (zlen s + prepend)) ;;
  run (if msb s then mem_write (d + 4) [0] else mret tt) ;;
  if zlen s =? 0 then mret tt else mem_write (d + 4 + prepend) s.

(** sshbuf_get_bignum2_bytes_direct, lines 599-633. *)
Definition sshbuf_get_bignum2_bytes_direct : M (list Z) :=
  do pl <- sshbuf_peek_string_direct ;;
  do d <- (if snd pl =? 0 then mret [] else mem_read (fst pl) (snd pl)) ;;
  if msb d then merr SSH_ERR_BIGNUM_IS_NEGATIVE else
  if (SSHBUF_MAX_BIGNUM + 1 <? snd pl) ||
     ((snd pl =? SSHBUF_MAX_BIGNUM + 1) && negb (hd 0 d =? 0))
  then merr SSH_ERR_BIGNUM_TOO_LARGE else
  fun b => match sshbuf_consume (u64 (snd pl + 4)) b with
           | Ret (ROk _) b' => Ret (ROk (strip0 d)) b'
           | Ret (RErr _) b' => Ret (RErr SSH_ERR_INTERNAL_ERROR) b'
           | Fault f => Fault f
           end.

(** ** Histories of calls on one buffer *)

Inductive op :=
| OPut (aok : bool) (v : list Z)
| OReserve (aok : bool) (n : Z)
| OPutf (aok : bool) (s : list Z)
| OPutInt (aok : bool) (w : nat) (val : Z)
| OPutString (aok : bool) (v : list Z)
| OPutBignum (aok : bool) (v : list Z)
| OPoke (offset : Z) (v : list Z)
| OGet (n : Z)
| OGetInt (w : nat)
| OPeekInt (w : nat) (offset : Z)
| OGetString (aok : bool)
| OGetCstring (aok : bool)
| OGetBignum
| OConsume (n : Z)
| OConsumeEnd (n : Z)
| OReset (aok : bool)
| OSetMax (aok : bool) (m : Z)
| OLen
| OAvail
| OCheckReserve (n : Z).

(** Values returned by calls. *)
Inductive rv := VUnit | VInt (z : Z) | VBytes (l : list Z).

Definition mmap {A B} (f : A -> B) (m : M A) : M B := do x <- m ;; mret (f x).

Definition do_op (o : op) : M rv :=
  match o with
  | OPut a v => mmap (fun _ => VUnit) (sshbuf_put a v)
  | OReserve a n => mmap (fun _ => VUnit) (sshbuf_reserve a n)
  | OPutf a s => mmap (fun _ => VUnit) (sshbuf_putf a s)
  | OPutInt a w v => mmap (fun _ => VUnit) (sshbuf_put_int a w v)
  | OPutString a v => mmap (fun _ => VUnit) (sshbuf_put_string a v)
  | OPutBignum a v => mmap (fun _ => VUnit) (sshbuf_put_bignum2_bytes a v)
  | OPoke o v => mmap (fun _ => VUnit) (sshbuf_poke o v)
  | OGet n => mmap VBytes (sshbuf_get n)
  | OGetInt w => mmap VInt (sshbuf_get_int w)
  | OPeekInt w o => mmap VInt (sshbuf_peek_int w o)
  | OGetString a => mmap VBytes (sshbuf_get_string a)
  | OGetCstring a => mmap VBytes (sshbuf_get_cstring a)
  | OGetBignum => mmap VBytes sshbuf_get_bignum2_bytes_direct
  | OConsume n => mmap (fun _ => VUnit) (sshbuf_consume n)
  | OConsumeEnd n => mmap (fun _ => VUnit) (sshbuf_consume_end n)
  | OReset a => mmap (fun _ => VUnit) (sshbuf_reset a)
  | OSetMax a m => mmap (fun _ => VUnit) (sshbuf_set_max_size a m)
  | OLen => mmap VInt sshbuf_len
  | OAvail => mmap VInt sshbuf_avail
  | OCheckReserve n => mmap (fun _ => VUnit) (sshbuf_check_reserve n)
  end.

(** Run a history, recording each call's return value.  A fault stops it. *)
Fixpoint run_ops (l : list op) (b : sbuf) : option (list (res rv) * sbuf) :=
  match l with
  | [] => Some ([], b)
  | o :: r =>
      match do_op o b with
      | Fault _ => None
      | Ret x b' => option_map (fun p => (x :: fst p, snd p)) (run_ops r b')
      end
  end.

(** What a caller can see in the buffer: sshbuf_len bytes at sshbuf_ptr. *)
Definition contents (b : sbuf) : list Z := ztake (size b - off b) (zdrop (off b) (dat b)).
