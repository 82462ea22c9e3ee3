(** What an upload is supposed to do: a server that keeps a file, and what that
    file should be in the end. *)
From Verif Require Import Base SshbufModel SshbufSpec WireSpec SclientModel SclientSpec SuploadModel.
Local Open Scope Z_scope.

(** A request to write [d] at [off]. *)
Definition stores_msg (h m : list Z) (id off : Z) (d : list Z) : Prop :=
  m = [6] ++ be_enc 4 id ++ enc_string h ++ be_enc 8 off ++ enc_string d /\
  0 <= id < 4294967296 /\ 0 <= off < 18446744073709551616 /\ zlen d <= 134217724.

(** A server with a file, at first [R0].  It carries the requests out whenever
    it likes, each at the offset given, or, for a file opened for appending, one
    after the other at the end; it answers each at most once, saying OK only
    when the request has been carried out.  When it reports an error it may have
    written part of the data.  The requests without an answer are listed with
    whether they have been carried out. *)
Inductive keeps (h R0 : list Z) (append : bool) : list item -> list (Z * Z * list Z * bool) -> list Z -> Prop :=
| kp_nil : keeps h R0 append [] [] R0
| kp_send tr open R m id off d : keeps h R0 append tr open R -> stores_msg h m id off d -> keeps h R0 append (tr ++ [TSend m]) (open ++ [(id, off, d, false)]) R
| kp_write tr o1 o2 R id off d : append = false -> keeps h R0 append tr (o1 ++ (id, off, d, false) :: o2) R -> keeps h R0 append tr (o1 ++ (id, off, d, true) :: o2) (write_at R off d)
| kp_append tr o1 o2 R id off d : append = true -> (forall x, In x o1 -> snd x = true) -> keeps h R0 append tr (o1 ++ (id, off, d, false) :: o2) R -> keeps h R0 append tr (o1 ++ (id, off, d, true) :: o2) (R ++ d)
| kp_ok tr o1 o2 R m id off d : keeps h R0 append tr (o1 ++ (id, off, d, true) :: o2) R -> status_reply id 0 m -> keeps h R0 append (tr ++ [TRecv m]) (o1 ++ o2) R
| kp_error tr o1 o2 R m id off d done code n : keeps h R0 append tr (o1 ++ (id, off, d, done) :: o2) R -> code <> 0 -> status_reply id code m ->
    keeps h R0 append (tr ++ [TRecv m]) (o1 ++ o2) (write_at R (if append then zlen R else off) (ztake n d)).

(** No error was reported. *)
Definition no_error (tr : list item) : Prop := forall m id code, In (TRecv m) tr -> status_reply id code m -> code = 0.

(** Sizes: pieces of at most 2^27 bytes, files below 2^62, and not so many
    requests that their 32-bit identifiers repeat. *)
Definition usizes_ok (i : ul_in) (L : list Z) (tr : list item) : Prop :=
  1 <= ui_buflen i <= 134217724 /\ 0 <= ui_msgid i < 4294967296 /\ zlen L < 4611686018427387904 /\ count is_send tr <= 4294967296.
(** The file before: the server creates or empties it, unless it is to be
    resumed or updated in place; when resuming, it reports its size truthfully. *)
Definition before_ok (i : ul_in) (R0 : list Z) : Prop :=
  zlen R0 < 4611686018427387904 /\ if ui_resume i then ui_stat i = Some (zlen R0) else if ui_inplace i then True else R0 = [].
(** No interrupt. *)
Definition undisturbed (i : ul_in) (evs : list uevent) : Prop := (forall e, In e evs -> ue_intr e = false) /\ ui_intr1 i = false /\ ui_intr2 i = false.
(** The file after the last requests. *)
Definition after (r : uresult) (honoured : bool) (R : list Z) : list Z :=
  match ur_trunc r with Some n => if honoured then truncate_to R n else R | None => R end.
(** What it should be: the local file, or a beginning of it; when resuming,
    what is there already and the rest. *)
Definition uploaded (i : ul_in) (L R0 : list Z) : list Z := if ui_resume i then R0 ++ zdrop (zlen R0) L else L.
Definition uploaded_up_to (i : ul_in) (L R0 : list Z) (n : Z) : list Z := if ui_resume i then R0 ++ part L (zlen R0) n else ztake n L.
