(** What a full transfer promises, in terms of the request (a list of memory
    addresses in transfer order) and of the kernel's answers. *)
From Verif Require Import Base AtomicioModel.

(** read(2)/write(2)/readv(2)/writev(2): -1, or a count no larger than what was
    offered.  [k] is what is still outstanding when the call is made; the
    kernel's answers are legal for a request of [k] bytes when each is legal for
    what the earlier ones left. *)
Fixpoint legal (k : Z) (evs : list answer) : Prop :=
  match evs with
  | [] => True
  | e :: evs' => -1 <= an_res e <= k /\ legal (if an_res e =? -1 then k else k - an_res e) evs'
  end.

(** A vector of (address, length) pairs: lengths are not negative and the total
    fits a size_t. *)
Definition iov_total (iov : list (Z * Z)) : Z := fold_right (fun sg t => snd sg + t) 0 iov.
Definition iov_ok (iov : list (Z * Z)) : Prop := Forall (fun sg => 0 <= snd sg) iov /\ iov_total iov < U64.
Definition iov_addrs (iov : list (Z * Z)) : list Z := flat_map seg_addrs iov.

(** Interruptions and "try again" are the transient failures. *)
Definition transient (e : answer) : Prop := an_res e = -1 /\ (an_errno e = EINTR \/ an_errno e = EAGAIN).
Definition hard_error (e : answer) : Prop := an_res e = -1 /\ an_errno e <> EINTR /\ an_errno e <> EAGAIN.

(** The bytes that reach the descriptor when the addresses are written in order. *)
Definition written (mem : Z -> Z) (moved : list Z) : list Z := map mem moved.
(** Memory after the bytes read off the descriptor are stored at the addresses in
    order. *)
Fixpoint stored (mem : Z -> Z) (moved data : list Z) : Z -> Z :=
  match moved, data with
  | a :: moved', d :: data' => stored (fun x => if x =? a then d else mem x) moved' data'
  | _, _ => mem
  end.

(** The total the kernel reported over a list of answers. *)
Definition progress (evs : list answer) : Z :=
  fold_right (fun e t => (if an_res e =? -1 then 0 else an_res e) + t) 0 evs.

(** What the caller can see being done for each answer used: the call offers
    exactly what is still outstanding; an interruption or progress is reported to
    the callback, if there is one; a "try again" is followed by waiting for the
    descriptor in the right direction. *)
Definition seen (a : act) : list Z + act := match a with ACall segs => inl (iov_addrs segs) | _ => inr a end.
Fixpoint expected (rd has_cb : bool) (req : list Z) (used : list answer) : list (list Z + act) :=
  match used with
  | [] => []
  | e :: used' =>
    inl req ::
    (if an_res e =? -1 then
       if an_errno e =? EINTR then if has_cb then [inr (ACb 0)] else []
       else if an_errno e =? EAGAIN then [inr (APoll (negb rd))]
       else []
     else if an_res e =? 0 then []
     else if has_cb then [inr (ACb (an_res e))] else [])
    ++ expected rd has_cb (if an_res e =? -1 then req else skipn (Z.to_nat (an_res e)) req) used'
  end.

(** The outcome of a transfer of the addresses [req] with the given answers:
    - the addresses moved are a prefix of the request, nothing twice, nothing out
      of order;
    - the value returned is their number, except that a hard error returns 0;
    - a hard error is the only way to that exception, and it is the kernel's last
      answer used, with its errno;
    - anything short of the request leaves errno saying why: EPIPE when the kernel
      moved nothing, EINTR when the progress callback asked to stop. *)
Definition transfer_result (has_cb : bool) (req : list Z) (evs : list answer) (v errno : Z) (moved : list Z) (rest : list answer) : Prop :=
  exists used, evs = used ++ rest /\
  moved = firstn (Z.to_nat (progress used)) req /\ progress used <= zlen req /\
  ( (v = zlen req /\ moved = req)
    \/ (v = zlen moved /\ zlen moved < zlen req /\
        ((errno = EPIPE /\ exists u e, used = u ++ [e] /\ an_res e = 0) \/
         (errno = EINTR /\ has_cb = true /\ exists u e, used = u ++ [e] /\ an_cb e = true)))
    \/ (v = 0 /\ zlen moved < zlen req /\ exists u e, used = u ++ [e] /\ hard_error e /\ errno = an_errno e) ).
