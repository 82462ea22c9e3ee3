(** Full-transfer input and output: atomicio.c.

    The kernel is an arbitrary list of answers to the successive read/write
    (readv/writev) calls; when the list ends the call in progress has not
    returned yet ([Blocked]).  Memory is a set of addresses: what a call moves is
    recorded as the list of addresses moved, in order, so that the same model
    serves both directions ([AtomicioSpec] turns it into bytes written or bytes
    stored).  Not modelled: BROKEN_READ_COMPARISON builds, and the result of
    poll(2), which the code ignores. *)
From Verif Require Import Base.

(** errno values (asm-generic): only their being distinct matters. *)
Definition EINTR : Z := 4.
Definition EAGAIN : Z := 11.
Definition EFAULT : Z := 14.
Definition EINVAL : Z := 22.
Definition EPIPE : Z := 32.
(** EWOULDBLOCK is EAGAIN on the platforms with the values above. *)

(** IOV_MAX on Linux. *)
Definition IOV_MAX : Z := 1024.

(** One answer of the kernel: the return value, errno when that is -1, and what
    the progress callback will return if it is called after this answer
    ([true] = -1). *)
Record answer := mkAnswer { an_res : Z; an_errno : Z; an_cb : bool }.

(** What the functions do, in order. *)
Inductive act :=
| ACall (segs : list (Z * Z))    (* f(fd, ...) offering these (address, length) pairs *)
| APoll (out : bool)             (* poll for POLLOUT (true) or POLLIN *)
| ACb (k : Z).                   (* progress callback *)

Inductive outcome :=
| Ret (v : Z) (errno : Z) (moved : list Z) (acts : list act) (rest : list answer)
| Blocked (moved : list Z) (acts : list act).

(** The addresses base, base+1, ..., base+n-1. *)
Fixpoint addrs (base : Z) (n : nat) : list Z :=
  match n with O => [] | S n' => base :: addrs (base + 1) n' end.
Definition seg_addrs (sg : Z * Z) : list Z := addrs (fst sg) (Z.to_nat (snd sg)).

(** atomicio.c:50-92 atomicio6.  [rd] is f == read; [has_cb] is cb != NULL;
    [errno] is the value of errno so far. *)
Fixpoint atomicio6 (rd has_cb : bool) (evs : list answer) (s n pos errno : Z)
    (moved : list Z) (acts : list act) : outcome :=
  if n >? pos then
    let segs := [(s + pos, n - pos)] in
    let acts1 := acts ++ [ACall segs] in
    match evs with
    | [] => Blocked moved acts1
    | e :: evs' =>
      if an_res e =? -1 then
        if an_errno e =? EINTR then
          if has_cb then
            let acts2 := acts1 ++ [ACb 0] in
            if an_cb e then Ret pos EINTR moved acts2 evs'
            else atomicio6 rd has_cb evs' s n pos (an_errno e) moved acts2
          else atomicio6 rd has_cb evs' s n pos (an_errno e) moved acts1
        else if an_errno e =? EAGAIN then
          atomicio6 rd has_cb evs' s n pos (an_errno e) moved (acts1 ++ [APoll (negb rd)])
        else Ret 0 (an_errno e) moved acts1 evs'
      else if an_res e =? 0 then Ret pos EPIPE moved acts1 evs'
      else
        let moved' := moved ++ firstn (Z.to_nat (an_res e)) (flat_map seg_addrs segs) in
        let pos' := u64 (pos + an_res e) in
        if has_cb then
          let acts2 := acts1 ++ [ACb (an_res e)] in
          if an_cb e then Ret pos' EINTR moved' acts2 evs'
          else atomicio6 rd has_cb evs' s n pos' errno moved' acts2
        else atomicio6 rd has_cb evs' s n pos' errno moved' acts1
    end
  else Ret pos errno moved acts evs.

(** atomicio.c:94-98 atomicio. *)
Definition atomicio (rd : bool) (evs : list answer) (s n errno : Z) : outcome :=
  atomicio6 rd false evs s n 0 errno [] [].

(** atomicio.c:146-150, the loop skipping completed iov entries; returns the
    remaining count and entries. *)
Fixpoint skip_iov (iov : list (Z * Z)) (rem : Z) : Z * list (Z * Z) :=
  match iov with
  | [] => (rem, [])
  | (b, l) :: iov' => if rem >=? l then skip_iov iov' (rem - l) else (rem, iov)
  end.

(** atomicio.c:122-171, the loop of atomiciov6. *)
Fixpoint atomiciov_loop (rd has_cb : bool) (evs : list answer) (iov : list (Z * Z)) (pos errno : Z)
    (moved : list Z) (acts : list act) : outcome :=
  match iov with
  | [] => Ret pos errno moved acts evs
  | (_, l0) :: _ =>
    if l0 >? 0 then
      let acts1 := acts ++ [ACall iov] in
      match evs with
      | [] => Blocked moved acts1
      | e :: evs' =>
        if an_res e =? -1 then
          if an_errno e =? EINTR then
            if has_cb then
              let acts2 := acts1 ++ [ACb 0] in
              if an_cb e then Ret pos EINTR moved acts2 evs'
              else atomiciov_loop rd has_cb evs' iov pos (an_errno e) moved acts2
            else atomiciov_loop rd has_cb evs' iov pos (an_errno e) moved acts1
          else if an_errno e =? EAGAIN then
            atomiciov_loop rd has_cb evs' iov pos (an_errno e) moved (acts1 ++ [APoll (negb rd)])
          else Ret 0 (an_errno e) moved acts1 evs'
        else if an_res e =? 0 then Ret pos EPIPE moved acts1 evs'
        else
          let moved' := moved ++ firstn (Z.to_nat (an_res e)) (flat_map seg_addrs iov) in
          let pos' := u64 (pos + an_res e) in
          let '(rem, iov1) := skip_iov iov (an_res e) in
          if (rem >? 0) && match iov1 with [] => true | (_, l1) :: _ => rem >? l1 end
          then Ret 0 EFAULT moved' acts1 evs'
          else
            (* "update pointer in partially complete iov"; skipped when none is left *)
            let iov2 := match iov1 with [] => [] | (b1, l1) :: t => (b1 + rem, l1 - rem) :: t end in
            if has_cb then
              let acts2 := acts1 ++ [ACb (an_res e)] in
              if an_cb e then Ret pos' EINTR moved' acts2 evs'
              else atomiciov_loop rd has_cb evs' iov2 pos' errno moved' acts2
            else atomiciov_loop rd has_cb evs' iov2 pos' errno moved' acts1
      end
    else Ret pos errno moved acts evs
  end.

(** atomicio.c:103-173 atomiciov6 (the array is copied first, so the caller's is
    not changed). *)
Definition atomiciov6 (rd has_cb : bool) (evs : list answer) (iov : list (Z * Z)) (iovcnt errno : Z) : outcome :=
  if (iovcnt <? 0) || (iovcnt >? IOV_MAX) then Ret 0 EINVAL [] [] evs
  else atomiciov_loop rd has_cb evs (firstn (Z.to_nat iovcnt) iov) 0 errno [] [].

(** atomicio.c:175-180 atomiciov. *)
Definition atomiciov (rd : bool) (evs : list answer) (iov : list (Z * Z)) (iovcnt errno : Z) : outcome :=
  atomiciov6 rd false evs iov iovcnt errno.
