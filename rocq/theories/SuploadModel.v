(** sftp-client.c: sftp_upload, 2031-2248.

    The environment decides what read(2) returns, what the server sends and
    when the user interrupts.  Messages are byte strings with the length taken
    off; None is a fatal error of get_msg.  The local file does not change
    during the upload, so fstat's size is its length.  File modes and times
    (preserve), fsync, progress meters and debug output are not modelled.
    [item], [req] and the request list are those of SclientModel. *)
From Verif Require Import Base SshbufModel SshbufSpec WireSpec Dec SclientModel.
Local Open Scope Z_scope.

(** What the caller and the environment provide: the local file (None: open,
    fstat or S_ISREG fail, 2055-2068), the size the server reports for the file
    to resume (None: sftp_stat fails), lseek, the handle (None: send_open
    fails), interrupts seen at 2195 and 2203, and the results of close(2) and
    sftp_close. *)
Record ul_in := mkUin {
  ui_local : option (list Z); ui_resume : bool; ui_inplace : bool; ui_stat : option Z; ui_lseek : bool; ui_handle : option (list Z);
  ui_buflen : Z; ui_numreq : Z; ui_msgid : Z; ui_intr1 : bool; ui_intr2 : bool; ui_lclose : bool; ui_close : bool }.
(** read(2) at 2138 once it is not interrupted: an error, or some bytes. *)
Inductive rd := RErr | RLen (n : Z).
(** One turn of the loop. *)
Record uevent := mkUev { ue_intr : bool; ue_read : rd; ue_msg : option (list Z) }.

(** The variables of sftp_upload. [u_off] is also the position in the local
    file: 2141 and 2187 advance both by the same amount.  [u_got] is whether
    [ack] is still NULL. *)
Record ul := mkUl {
  u_acks : list req; u_id : Z; u_start : Z; u_ackid : Z; u_off : Z; u_hw : Z; u_max : Z; u_reord : bool; u_status : Z; u_got : bool; u_trace : list item }.

(** The number of bytes read(2) returns: none exactly at the end of the file. *)
Definition read_len (L : list Z) (off buflen n : Z) : Z :=
  if off >=? zlen L then 0 else Z.max 1 (Z.min n (Z.min buflen (zlen L - off))).
(** (off_t) of a u_int64_t *)
Definition as_off (x : Z) : Z := if x <? 9223372036854775808 then x else x - 18446744073709551616.

Section Upload.
Variable handle L : list Z.
Variable buflen num_requests : Z.

(** 2153-2159 *)
Definition write_request (r : req) (d : list Z) : list Z :=
  [FXP_WRITE] ++ be_enc 4 (u32 (rq_id r)) ++ enc_string handle ++ be_enc 8 (u64 (rq_off r)) ++ enc_string d.
(** 2151-2162 *)
Definition send_piece (s : ul) (len : Z) : ul :=
  let id := u32 (u_id s + 1) in
  let r := mkReq id len (u_off s) in
  let d := ztake len (zdrop (u_off s) L) in
  mkUl (u_acks s ++ [r]) id (u_start s) (u_ackid s) (u_off s) (u_hw s) (u_max s) (u_reord s) (u_status s) true (u_trace s ++ [TSend (write_request r d)]).
Inductive ures := UOk (s : ul) | UFatal (s : ul).
Definition u_received (m : list Z) (s : ul) : ul :=
  mkUl (u_acks s) (u_id s) (u_start s) (u_ackid s) (u_off s) (u_hw s) (u_max s) (u_reord s) (u_status s) (u_got s) (u_trace s ++ [TRecv m]).
(** 2176-2214 *)
Definition on_ack (s : ul) (r : req) (status : Z) : ul :=
  let top := u64 (rq_off r + rq_len r) in
  let max := if u_max s <? top then top else u_max s in
  let hw := if negb (u_reord s) && (rq_off r <=? u_hw s) then max else u_hw s in
  let reord := if negb (u_reord s) && (rq_off r <=? u_hw s) then u_reord s else if negb (u_reord s) && (rq_off r >? u_hw s) then true else u_reord s in
  mkUl (request_remove (u_acks s) (rq_id r)) (u_id s) (u_start s) (u32 (u_ackid s + 1)) (u_off s) hw max reord status true (u_trace s).
Definition on_reply (s0 : ul) (m : list Z) : ures :=
  let s := u_received m s0 in
  match get_int 1 m with
  | None => UFatal s
  | Some (type, m1) =>
    match get_int 4 m1 with
    | None => UFatal s
    | Some (rid, m2) =>
      if negb (type =? FXP_STATUS) then UFatal s else
      match get_int 4 m2 with
      | None => UFatal s
      | Some (status, _) =>
        match request_find (u_acks s) rid with
        | None => UFatal s
        | Some r => UOk (on_ack s r status)
        end
      end
    end
  end.
Definition advance (len : Z) (s : ul) : ul :=
  mkUl (u_acks s) (u_id s) (u_start s) (u_ackid s) (u_off s + len) (u_hw s) (u_max s) (u_reord s) (u_status s) (u_got s) (u_trace s).

(** 2126-2220.  One turn; the flag is whether an interrupt has been seen. *)
Inductive turn := Again (s : ul) | Leave (s : ul) | Dead (s : ul).
Definition one_turn (intr : bool) (e : uevent) (s : ul) : turn :=
  let len := if intr || negb (u_status s =? FX_OK) then Some 0 else match ue_read e with RErr => None | RLen n => Some (read_len L (u_off s) buflen n) end in
  match len with
  | None => Dead s
  | Some len =>
    if (len =? 0) && match u_acks s with [] => true | _ => false end then Leave s else
    let s1 := if negb (len =? 0) then send_piece s len else s in
    if negb (u_got s1) then Dead s1 else
    if (u_id s1 =? u_start s1) || (len =? 0) || (u32 (u_id s1 - u_ackid s1) >=? num_requests) then
      match ue_msg e with
      | None => Dead s1
      | Some m =>
        match on_reply s1 m with
        | UFatal s2 => Dead s2
        | UOk s2 => if u_off s2 + len <? 0 then Dead s2 else Again (advance len s2)
        end
      end
    else if u_off s1 + len <? 0 then Dead s1 else Again (advance len s1)
  end.
Inductive uend := UEnded (intr : bool) (s : ul) | UWaiting (s : ul) | UDied (s : ul).
Fixpoint ul_loop (evs : list uevent) (intr : bool) (s : ul) : uend :=
  match evs with
  | [] => UWaiting s
  | e :: rest =>
    let intr' := intr || ue_intr e in
    match one_turn intr' e s with
    | Again s' => ul_loop rest intr' s'
    | Leave s' => UEnded intr' s'
    | Dead s' => UDied s'
    end
  end.
End Upload.

(** The result: what is returned, the size that the fsetstat at 2204-2208 asks
    for (its own result is ignored), and the messages.  [UBlocked]: the history
    ends before the upload does. *)
Inductive uout := UReturn (ok : bool) | UExited | UBlocked.
Record uresult := mkUres { ur_out : uout; ur_trunc : option Z; ur_trace : list item }.
(** 2193-2248 *)
Definition ul_finish (i : ul_in) (intr : bool) (s : ul) : uresult :=
  let i1 := intr || ui_intr1 i in
  let i2 := i1 || ui_intr2 i in
  let good := u_status s =? FX_OK in
  let hw := if good && negb i1 then u_max s else u_hw s in
  let trunc := if ui_inplace i || (ui_resume i && (negb good || i2)) then Some hw else None in
  mkUres (UReturn (good && ui_lclose i && ui_close i)) trunc (u_trace s).
(** 2031-2248 *)
Definition sftp_upload (i : ul_in) (evs : list uevent) : uresult :=
  let fail := mkUres (UReturn false) None [] in
  match ui_local i with
  | None => fail
  | Some L =>
    match (if ui_resume i then
             match ui_stat i with
             | None => None
             | Some size => if as_off size >=? zlen L then None else if negb (ui_lseek i) then None else Some size
             end
           else Some 0) with
    | None => fail
    | Some start =>
      match ui_handle i with
      | None => fail
      | Some h =>
        let id := ui_msgid i in
        let s0 := mkUl [] id (u32 (id + 1)) (u32 (id + 1)) (as_off start) start 0 false FX_OK false [] in
        match ul_loop h L (ui_buflen i) (ui_numreq i) evs false s0 with
        | UEnded intr s => ul_finish i intr s
        | UWaiting s => mkUres UBlocked None (u_trace s)
        | UDied s => mkUres UExited None (u_trace s)
        end
      end
    end
  end.
