(** Model of openbsd-compat/vis.c (vis, strnvis) and of the part of log.c that
    turns a formatted message into what is written (do_log).  A character is
    its byte value: vis.c receives a possibly negative [char], but every use
    of it there depends on the low eight bits only. *)
From Coq Require Import String.
From Verif Require Import Base.
Local Open Scope Z_scope.

(** openbsd-compat/vis.h:49-68. *)
Definition VIS_OCTAL : Z := 0x01.
Definition VIS_CSTYLE : Z := 0x02.
Definition VIS_SP : Z := 0x04.
Definition VIS_TAB : Z := 0x08.
Definition VIS_NL : Z := 0x10.
Definition VIS_SAFE : Z := 0x20.
Definition VIS_NOSLASH : Z := 0x40.
Definition VIS_GLOB : Z := 0x100.
Definition VIS_DQ : Z := 0x200.
Definition VIS_ALL : Z := 0x400.
Definition has (flag b : Z) : bool := negb (Z.land flag b =? 0).

Section Vis.
(** isgraph(3) and iscntrl(3) of the current locale. *)
Variable isgraph iscntrl : Z -> bool.

(** vis.c:46-56 isvisible; isascii is [c < 128]. *)
Definition is_glob (c : Z) : bool := (c =? 42) || (c =? 63) || (c =? 91) || (c =? 35).
Definition isvisible (c flag : Z) : bool :=
  ((c =? 92) || negb (has flag VIS_ALL)) &&
  (((c <? 128) && (negb (is_glob c) || negb (has flag VIS_GLOB)) && isgraph c)
   || (negb (has flag VIS_SP) && (c =? 32))
   || (negb (has flag VIS_TAB) && (c =? 9))
   || (negb (has flag VIS_NL) && (c =? 10))
   || (has flag VIS_SAFE && ((c =? 8) || (c =? 7) || (c =? 13) || isgraph c))).

(** vis.c:74-115: the letter of a C-style escape.  The NUL case does not arise:
    the callers stop at NUL. *)
Definition cstyle (c : Z) : option Z :=
  if c =? 10 then Some 110
  else if c =? 13 then Some 114
  else if c =? 8 then Some 98
  else if c =? 7 then Some 97
  else if c =? 11 then Some 118
  else if c =? 9 then Some 116
  else if c =? 12 then Some 102
  else if c =? 32 then Some 115
  else None.

(** vis.c:119-122. *)
Definition octal (c : Z) : list Z :=
  [92; Z.land (Z.shiftr c 6) 7 + 48; Z.land (Z.shiftr c 3) 7 + 48; Z.land c 7 + 48].

(** vis.c:117-140: neither visible nor C-style. *)
Definition vis_rest (c flag : Z) : list Z :=
  if (Z.land c 127 =? 32) || has flag VIS_OCTAL || (has flag VIS_GLOB && is_glob c) then octal c
  else
    (if has flag VIS_NOSLASH then [] else [92]) ++
    (if negb (Z.land c 128 =? 0) then [77] else []) ++
    (let c := if negb (Z.land c 128 =? 0) then Z.land c 127 else c in
     if iscntrl c then 94 :: (if c =? 127 then [63] else [u8 (c + 64)]) else [45; c]).

(** vis.c:65-67: a visible character that gets a backslash. *)
Definition slashed (c flag : Z) : bool :=
  ((c =? 34) && has flag VIS_DQ) || ((c =? 92) && negb (has flag VIS_NOSLASH)).

(** vis.c:62-144 vis: the bytes written before the NUL. *)
Definition vis (c flag : Z) : list Z :=
  if isvisible c flag then (if slashed c flag then [92; c] else [c])
  else match (if has flag VIS_CSTYLE then cstyle c else None) with
       | Some l => [92; l]
       | None => vis_rest c flag
       end.

(** vis.c:181-205: the loop of strnvis.  [dst] is what has been written, [e]
    is [end - start], [i] the variable of that name; the result is the final
    [dst], [i] and the position in the source. *)
Fixpoint strnvis_loop (e flag : Z) (src dst : list Z) (i : Z) : list Z * Z * list Z :=
  match src with
  | [] => (dst, i, [])
  | c :: r =>
      if zlen dst <? e then
        if isvisible c flag then
          if slashed c flag then
            if zlen dst + 1 >=? e then (dst, 2, src)
            else strnvis_loop e flag r (dst ++ [92] ++ [c]) 1
          else strnvis_loop e flag r (dst ++ [c]) 1
        else
          let t := vis c flag in
          if zlen dst + zlen t <=? e then strnvis_loop e flag r (dst ++ t) (zlen t)
          else (dst, zlen t, src)
      else (dst, i, src)
  end.

(** vis.c:210-211: the size of the rest. *)
Fixpoint rest_size (flag : Z) (src : list Z) : Z :=
  match src with
  | [] => 0
  | c :: r => zlen (vis c flag) + rest_size flag r
  end.

(** vis.c:173-214 strnvis: the string in [dst] ([None]: nothing is written)
    and the value returned.  [src] has no NUL; [siz] is a size_t and the
    pointer [start + siz - 1] is taken as an integer. *)
Definition strnvis (src : list Z) (siz flag : Z) : option (list Z) * Z :=
  let e := siz - 1 in
  let '(dst, i, r) := strnvis_loop e flag src [] 0 in
  ((if siz >? 0 then Some dst else None),
   if zlen dst + i >? e then zlen dst + rest_size flag r else zlen dst).

(** log.c:70-71. *)
Definition LOG_SYSLOG_VIS : Z := Z.lor (Z.lor (Z.lor VIS_CSTYLE VIS_NL) VIS_TAB) VIS_OCTAL.
Definition LOG_STDERR_VIS : Z := Z.lor VIS_SAFE VIS_OCTAL.
(** log.c:329. *)
Definition MSGBUFSIZ : Z := 1024.

(** log.c:356-387: the word put before the message. *)
Inductive log_level := QUIET | FATAL | ERROR | INFO | VERBOSE | DEBUG1 | DEBUG2 | DEBUG3 | NOT_SET.
Definition level_num (l : log_level) : Z :=
  match l with QUIET => 0 | FATAL => 1 | ERROR => 2 | INFO => 3 | VERBOSE => 4 | DEBUG1 => 5 | DEBUG2 => 6 | DEBUG3 => 7 | NOT_SET => -1 end.
Definition level_text (l : log_level) (stderr : bool) : option (list Z) :=
  match l with
  | FATAL => if stderr then None else Some (bs "fatal")
  | ERROR => if stderr then None else Some (bs "error")
  | INFO | VERBOSE => None
  | DEBUG1 => Some (bs "debug1")
  | DEBUG2 => Some (bs "debug2")
  | DEBUG3 => Some (bs "debug3")
  | QUIET | NOT_SET => Some (bs "internal error")
  end.

(** What do_log hands over. *)
Inductive emitted :=
| Nothing
| Handler (line : list Z)
| Written (line : list Z)    (** write(log_stderr_fd, ...) *)
| Syslog (line : list Z).    (** syslog(pri, "%.500s", ...) *)

(** log.c:339-428 do_log.  [text] is what the format and its arguments expand
    to (without NUL); the prefix is put in front of the expansion although the
    code puts it in front of the format, which is the same thing as long as
    the prefixed format fits in 1023 bytes.  The settings are [level_set]
    (log_level), [handler] and [log_on_stderr]. *)
Definition do_log (level level_set : log_level) (force : bool) (handler : bool) (log_on_stderr : Z) (progname : list Z)
    (text : list Z) (suffix : option (list Z)) : emitted :=
  if negb force && (level_num level >? level_num level_set) then Nothing
  else
    let stderr := negb (log_on_stderr =? 0) in
    let msgbuf :=
      match level_text level stderr with
      | Some w => if handler then ztake (MSGBUFSIZ - 1) text else ztake (MSGBUFSIZ - 1) (w ++ bs ": " ++ text)
      | None => ztake (MSGBUFSIZ - 1) text
      end in
    let msgbuf :=
      match suffix with
      | Some s => ztake (MSGBUFSIZ - 1) (msgbuf ++ bs ": " ++ s)
      | None => msgbuf
      end in
    match fst (strnvis msgbuf MSGBUFSIZ (if stderr then LOG_STDERR_VIS else LOG_SYSLOG_VIS)) with
    | None => Nothing
    | Some fmtbuf =>
        if handler then Handler fmtbuf
        else if stderr then
          Written (ztake (MSGBUFSIZ - 1)
            ((if log_on_stderr >? 1 then progname ++ bs ": " else []) ++ ztake (MSGBUFSIZ - 3) fmtbuf ++ [13; 10]))
        else Syslog (ztake 500 fmtbuf)
    end.
End Vis.
