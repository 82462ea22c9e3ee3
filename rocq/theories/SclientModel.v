(** sftp-client.c: sftp_download and sftp_upload.

    Inputs are what the environment decides: the server's messages, the results
    of local calls, and when the user interrupts.  Messages are byte strings
    (get_msg, 188-228, with the length already taken off; None is one of its
    fatal errors).  The local file of a download, and of an upload the bytes
    read from it, are byte lists.  Progress meters, debug and error messages,
    bandwidth limits, file modes and times (preserve), fsync, and allocation
    failure are not modelled. *)
From Verif Require Import Base SshbufModel SshbufSpec WireSpec Dec.
Local Open Scope Z_scope.

(** sftp.h *)
Definition FXP_READ : Z := 5.
Definition FXP_WRITE : Z := 6.
Definition FXP_STATUS : Z := 101.
Definition FXP_DATA : Z := 103.
Definition FX_OK : Z := 0.
Definition FX_EOF : Z := 1.
Definition FX_FAILURE : Z := 4.
(** sftp-client.c 78 *)
Definition MIN_READ_SIZE : Z := 512.

(** struct request, 108-113 *)
Record req := mkReq { rq_id : Z; rq_len : Z; rq_off : Z }.
(** request_find, 140-150 *)
Fixpoint request_find (l : list req) (id : Z) : option req :=
  match l with
  | [] => None
  | r :: l' => if negb (rq_id r =? id) then request_find l' id else Some r
  end.
(** TAILQ_REMOVE, and the update in place of 1787-1789, of the request found;
    it is the first with its id. *)
Fixpoint request_remove (l : list req) (id : Z) : list req :=
  match l with
  | [] => []
  | r :: l' => if negb (rq_id r =? id) then r :: request_remove l' id else l'
  end.
Fixpoint request_update (l : list req) (id : Z) (new : req) : list req :=
  match l with
  | [] => []
  | r :: l' => if negb (rq_id r =? id) then r :: request_update l' id new else new :: l'
  end.

(** A file after write(2) of [d] at offset [off], and after ftruncate(2). *)
Definition zeros (n : Z) : list Z := repeat 0 (Z.to_nat n).
Definition write_at (f : list Z) (off : Z) (d : list Z) : list Z :=
  match d with
  | [] => f
  | _ => ztake off (f ++ zeros (off - zlen f)) ++ d ++ zdrop (off + zlen d) f
  end.
Definition truncate_to (f : list Z) (n : Z) : list Z := ztake n (f ++ zeros (n - zlen f)).

(** The results of lseek and atomicio at 1752-1753: success, or failure after
    some bytes.  (More than the whole is not possible.) *)
Inductive wres := WOk | WFail (n : Z).
Definition wdone (w : wres) (d : list Z) : Z := match w with WOk => zlen d | WFail n => Z.max 0 (Z.min n (zlen d)) end.
Definition wfailed (w : wres) : bool := match w with WOk => false | WFail _ => true end.

(** What can be seen from outside, in order: requests, replies, and writes to
    the local file. *)
Inductive item :=
| TSend (m : list Z)
| TRecv (m : list Z)
| TWrite (off : Z) (d : list Z) (w : wres).

(** send_read_request, 1521-1538 *)
Definition read_request (handle : list Z) (r : req) : list Z :=
  [FXP_READ] ++ be_enc 4 (u32 (rq_id r)) ++ enc_string handle ++ be_enc 8 (u64 (rq_off r)) ++ be_enc 4 (u32 (rq_len r)).

(** One turn of the loop of a download: whether the user interrupts before it,
    the message that arrives, and how the write goes. *)
Record event := mkEv { ev_intr : bool; ev_msg : option (list Z); ev_write : wres }.
(** The variables of sftp_download. *)
Record dl := mkDl {
  d_reqs : list req; d_num : Z; d_max : Z; d_off : Z; d_buf : Z; d_next : Z;
  d_hw : Z; d_ack : Z; d_reord : bool; d_rerr : bool; d_werr : bool; d_status : Z;
  d_file : list Z; d_trace : list item }.
Inductive res := Ok (s : dl) | Fatal (s : dl).

Section Download.
Variable handle : list Z.
Variable size : Z.
Variable num_requests : Z.

(** 1712-1717 *)
Definition send_one (s : dl) : dl :=
  let r := mkReq (d_next s) (d_buf s) (d_off s) in
  mkDl (d_reqs s ++ [r]) (d_num s + 1) (d_max s) (u64 (d_off s + d_buf s)) (d_buf s) (u32 (d_next s + 1))
    (d_hw s) (d_ack s) (d_reord s) (d_rerr s) (d_werr s) (d_status s) (d_file s) (d_trace s ++ [TSend (read_request handle r)]).
(** 1707-1718 *)
Definition send_more (s : dl) : dl := Nat.iter (Z.to_nat (d_max s - d_num s)) send_one s.
Definition stop_new (s : dl) : dl :=
  mkDl (d_reqs s) (d_num s) 0 (d_off s) (d_buf s) (d_next s) (d_hw s) (d_ack s) (d_reord s) (d_rerr s) (d_werr s) (d_status s) (d_file s) (d_trace s).
Definition received (m : list Z) (s : dl) : dl :=
  mkDl (d_reqs s) (d_num s) (d_max s) (d_off s) (d_buf s) (d_next s) (d_hw s) (d_ack s) (d_reord s) (d_rerr s) (d_werr s) (d_status s) (d_file s) (d_trace s ++ [TRecv m]).

(** 1732-1741 *)
Definition on_status (s : dl) (r : req) (status : Z) : dl :=
  mkDl (request_remove (d_reqs s) (rq_id r)) (d_num s - 1) 0 (d_off s) (d_buf s) (d_next s) (d_hw s) (d_ack s) (d_reord s)
    (if negb (status =? FX_EOF) then true else d_rerr s) (d_werr s) status (d_file s) (d_trace s).
(** 1751-1772 *)
Definition on_write (s : dl) (r : req) (data : list Z) (w : wres) : dl :=
  let len := zlen data in
  let file := write_at (d_file s) (rq_off r) (ztake (wdone w data) data) in
  let tr := d_trace s ++ [TWrite (rq_off r) data w] in
  if wfailed w && negb (d_werr s) then
    mkDl (d_reqs s) (d_num s) 0 (d_off s) (d_buf s) (d_next s) (d_hw s) (d_ack s) (d_reord s) (d_rerr s) true (d_status s) file tr
  else
    let ack := if d_ack s <? u64 (rq_off r + len) then u64 (rq_off r + len) else d_ack s in
    let hw := if negb (d_reord s) && (rq_off r <=? d_hw s) then ack else d_hw s in
    let reord := if negb (d_reord s) && (rq_off r <=? d_hw s) then d_reord s else if negb (d_reord s) && (rq_off r >? d_hw s) then true else d_reord s in
    mkDl (d_reqs s) (d_num s) (d_max s) (d_off s) (d_buf s) (d_next s) hw ack reord (d_rerr s) (d_werr s) (d_status s) file tr.
(** 1776-1795 *)
Definition on_len (s : dl) (r : req) (len : Z) : dl :=
  if len =? rq_len r then
    mkDl (request_remove (d_reqs s) (rq_id r)) (d_num s - 1) (d_max s) (d_off s) (d_buf s) (d_next s)
      (d_hw s) (d_ack s) (d_reord s) (d_rerr s) (d_werr s) (d_status s) (d_file s) (d_trace s)
  else
    let r' := mkReq (d_next s) (rq_len r - len) (u64 (rq_off r + len)) in
    mkDl (request_update (d_reqs s) (rq_id r) r') (d_num s) (d_max s) (d_off s)
      (if len <? d_buf s then Z.max MIN_READ_SIZE len else d_buf s) (u32 (d_next s + 1))
      (d_hw s) (d_ack s) (d_reord s) (d_rerr s) (d_werr s) (d_status s) (d_file s) (d_trace s ++ [TSend (read_request handle r')]).
(** 1796-1807 *)
Definition on_window (s : dl) : dl :=
  let max := if d_max s >? 0 then
      (if (size >? 0) && (d_off s >? size) then 1 else if d_max s <? num_requests then d_max s + 1 else d_max s)
    else d_max s in
  mkDl (d_reqs s) (d_num s) max (d_off s) (d_buf s) (d_next s) (d_hw s) (d_ack s) (d_reord s) (d_rerr s) (d_werr s) (d_status s) (d_file s) (d_trace s).
(** 1720-1812 *)
Definition on_msg (s0 : dl) (m : list Z) (w : wres) : res :=
  let s := received m s0 in
  match get_int 1 m with
  | None => Fatal s
  | Some (type, m1) =>
    match get_int 4 m1 with
    | None => Fatal s
    | Some (id, m2) =>
      match request_find (d_reqs s) id with
      | None => Fatal s
      | Some r =>
        if type =? FXP_STATUS then
          match get_int 4 m2 with
          | None => Fatal s
          | Some (status, _) => Ok (on_status s r status)
          end
        else if type =? FXP_DATA then
          match get_str m2 with
          | None => Fatal s
          | Some (data, _) =>
            if zlen data >? rq_len r then Fatal s
            else Ok (on_window (on_len (on_write s r data w) r (zlen data)))
          end
        else Fatal s
      end
    end
  end.

(** 1692-1813: the loop ends, waits for a message that is not in the history,
    or the program exits.  The flag is whether an interrupt has been seen. *)
Inductive loop_end := Ended (intr : bool) (s : dl) | Waiting (s : dl) | Died (s : dl).
Fixpoint dl_loop (evs : list event) (intr : bool) (s : dl) : loop_end :=
  if negb ((d_num s >? 0) || (d_max s >? 0)) then Ended intr s else
  match evs with
  | [] => Waiting (send_more s)
  | e :: rest =>
    let intr' := intr || ev_intr e in
    if intr' && (d_num s =? 0) then Ended intr' s else
    let s1 := if intr' then stop_new s else s in
    let s2 := send_more s1 in
    match ev_msg e with
    | None => Died s2
    | Some m => match on_msg s2 m (ev_write e) with
                | Fatal s3 => Died s3
                | Ok s3 => dl_loop rest intr' s3
                end
    end
  end.
End Download.

(** What the caller and the environment of a download provide: the attributes,
    the result of send_open (None: refused), of open(2), fstat(2), the file
    there before; at the end, whether an interrupt has come by 1822, 1831 and
    1852, and the results of ftruncate(2) and sftp_close. *)
Record dl_in := mkIn {
  i_size : option Z; i_perm : option Z; i_resume : bool; i_inplace : bool;
  i_handle : option (list Z); i_open : bool; i_fstat : bool; i_local : list Z;
  i_buflen : Z; i_numreq : Z; i_msgid : Z;
  i_intr1 : bool; i_intr2 : bool; i_intr3 : bool; i_trunc : bool; i_close : bool }.
Inductive outcome := Return (ok : bool) | Exited | Blocked.
Record result := mkRes { o_out : outcome; o_file : list Z; o_trace : list item }.

(** 1818-1887 *)
Definition dl_finish (i : dl_in) (intr : bool) (s : dl) : result :=
  match d_reqs s with
  | _ :: _ => mkRes Exited (d_file s) (d_trace s)
  | [] =>
    let i1 := intr || i_intr1 i in
    let i2 := i1 || i_intr2 i in
    let i3 := i2 || i_intr3 i in
    let hw := if negb (d_rerr s) && negb (d_werr s) && negb i1 then d_ack s else d_hw s in
    let file := if i_inplace i || d_rerr s || d_werr s || i2
                then (if i_trunc i then truncate_to (d_file s) hw else d_file s) else d_file s in
    let ok := if d_rerr s then false else if d_werr s then false else i_close i && negb i3 in
    mkRes (Return ok) file (d_trace s)
  end.
(** S_ISREG *)
Definition s_isreg (perm : Z) : bool := Z.land perm 61440 =? 32768.
(** sftp_download, 1596-1888, from where the attributes are known. *)
Definition sftp_download (i : dl_in) (evs : list event) : result :=
  if match i_perm i with Some p => negb (s_isreg p) | None => false end then mkRes (Return false) (i_local i) [] else
  let size := match i_size i with Some z => z | None => 0 end in
  match i_handle i with
  | None => mkRes (Return false) (i_local i) []
  | Some handle =>
    if negb (i_open i) then mkRes (Return false) (i_local i) [] else
    let file := if i_resume i || i_inplace i then i_local i else [] in
    if i_resume i && negb (i_fstat i) then mkRes (Return false) file [] else
    if i_resume i && (zlen file >? size) then mkRes (Return false) file [] else
    let start := if i_resume i then zlen file else 0 in
    let s0 := mkDl [] 0 1 start (i_buflen i) (i_msgid i) start start false false false FX_OK file [] in
    match dl_loop handle size (i_numreq i) evs false s0 with
    | Ended intr s => dl_finish i intr s
    | Waiting s => mkRes Blocked (d_file s) (d_trace s)
    | Died s => mkRes Exited (d_file s) (d_trace s)
    end
  end.
