(** What transfers are supposed to do, in terms of the messages on the wire, a
    server that tells the truth about a file, and the local file. *)
From Verif Require Import Base SshbufModel SshbufSpec WireSpec SclientModel.
Local Open Scope Z_scope.

(** The bytes of [f] from [off] on, at most [n]. *)
Definition part (f : list Z) (off n : Z) : list Z := ztake n (zdrop off f).

(** A read request for [len] bytes at [off]. *)
Definition asks (h m : list Z) (id off len : Z) : Prop :=
  m = [5] ++ be_enc 4 id ++ enc_string h ++ be_enc 8 off ++ be_enc 4 len /\
  0 <= id < 4294967296 /\ 0 <= off < 18446744073709551616 /\ 0 <= len < 4294967296.
(** A data reply and a status reply. *)
Definition data_reply (id : Z) (d m : list Z) : Prop := zlen d <= 262144 /\ exists rest, m = [103] ++ be_enc 4 id ++ enc_string d ++ rest.
Definition status_reply (id code : Z) (m : list Z) : Prop := 0 <= code < 4294967296 /\ exists rest, m = [101] ++ be_enc 4 id ++ be_enc 4 code ++ rest.
(** A truthful reply to a read of [F]: bytes of the file, as few as the server
    likes, but from inside it; end of file only at the end of the file; or an error. *)
Definition truth (F : list Z) (id off len : Z) (m : list Z) : Prop :=
  (exists d, data_reply id d m /\ zlen d <= len /\ off + zlen d <= zlen F /\ d = part F off (zlen d)) \/
  (status_reply id 1 m /\ zlen F <= off) \/
  (exists code, code <> 1 /\ status_reply id code m).
(** A server that answers requests in whatever order, each at most once and
    truthfully.  The list holds the requests without an answer yet. *)
Inductive serves (h F : list Z) : list item -> list (Z * Z * Z) -> Prop :=
| sv_nil : serves h F [] []
| sv_send tr open m id off len : serves h F tr open -> asks h m id off len -> serves h F (tr ++ [TSend m]) (open ++ [(id, off, len)])
| sv_recv tr o1 o2 m id off len : serves h F tr (o1 ++ (id, off, len) :: o2) -> truth F id off len m -> serves h F (tr ++ [TRecv m]) (o1 ++ o2)
| sv_write tr open off d w : serves h F tr open -> serves h F (tr ++ [TWrite off d w]) open.
Definition honest (h F : list Z) (tr : list item) : Prop := exists open, serves h F tr open.

(** Counting. *)
Definition is_send (x : item) : bool := match x with TSend _ => true | _ => false end.
Definition is_recv (x : item) : bool := match x with TRecv _ => true | _ => false end.
Definition is_wfail (x : item) : bool := match x with TWrite _ _ w => wfailed w | _ => false end.
Definition count (p : item -> bool) (tr : list item) : Z := zlen (filter p tr).

(** Sizes: buffers of at most 2^30 bytes, files below 2^62, and not so many
    requests that their 32-bit identifiers repeat. *)
Definition sizes_ok (i : dl_in) (F : list Z) (tr : list item) : Prop :=
  0 <= i_buflen i <= 1073741824 /\ 0 <= i_msgid i < 4294967296 /\ zlen F < 4611686018427387904 /\ zlen (i_local i) < 4611686018427387904 /\
  count is_send tr <= 4294967296.
(** What the local file should be: the remote file; when resuming, what is
    there already and the rest of the remote file. *)
Definition copy (i : dl_in) (F : list Z) : list Z :=
  if i_resume i then i_local i ++ zdrop (zlen (i_local i)) F else F.
(** ... and a beginning of it, at least what was there when resuming. *)
Definition copy_up_to (i : dl_in) (F : list Z) (n : Z) : list Z :=
  if i_resume i then i_local i ++ part F (zlen (i_local i)) n else ztake n F.
