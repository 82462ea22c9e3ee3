(** Model of utf8.c: vasnmprintf and the functions built on it.  The C library
    enters through oracles: [mbtowc n s] is what the n-th call of mbtowc(3)
    answers for the string [s] ([None] for -1), so the decoder may keep a shift
    state; [wcwidth] is wcwidth(3); [grow n] says whether the n-th call of
    recallocarray succeeds. *)
From Coq Require Import String.
From Verif Require Import Base VisModel.
Local Open Scope Z_scope.

Definition INT_MAX : Z := 2147483647.

Section Utf.
Variable isgraph iscntrl : Z -> bool.
Variable mbtowc : nat -> list Z -> option (Z * Z).   (** wide character, length *)
Variable wcwidth : Z -> Z.
Variable codeset : list Z.                            (** nl_langinfo(CODESET) *)
Variable grow : nat -> bool.

(** utf8.c:59-70 dangerous_locale. *)
Definition dangerous_locale : bool :=
  negb (beqb codeset (bs "UTF-8")) && negb (beqb codeset (bs "US-ASCII")) && negb (beqb codeset (bs "ANSI_X3.4-1968"))
  && negb (beqb codeset (bs "ISO8859-1")) && negb (beqb codeset (bs "646")) && negb (beqb codeset []).

(** The state of the loop, utf8.c:106-116.  [p_dst] holds the bytes before dp;
    [p_sz] is sz; [p_calls] and [p_grows] count library calls. *)
Record pstate := mkP { p_dst : list Z; p_sz : Z; p_print : bool; p_width : Z; p_ret : Z; p_calls : nat; p_grows : nat }.

(** utf8.c:72-89 grow_dst: [None] is -1. *)
Definition grow_dst (s : pstate) (maxsz need : Z) : option pstate :=
  if zlen (p_dst s) + need <? p_sz s then Some s
  else
    let tsz := if p_sz s + 128 >? maxsz then maxsz else p_sz s + 128 in
    if grow (p_grows s) then Some (mkP (p_dst s) tsz (p_print s) (p_width s) (p_ret s) (p_calls s) (S (p_grows s)))
    else None.

(** Outcomes of a step: undefined behaviour (a write outside dst, or signed
    overflow) is kept apart. *)
Inductive pout :=
| PGo (s : pstate)
| PStop (s : pstate)      (** the loop is left with ret = -1 *)
| PUndef.

Definition set_ret (s : pstate) (r : Z) : pstate := mkP (p_dst s) (p_sz s) (p_print s) (p_width s) r (p_calls s) (p_grows s).
Definition set_print (s : pstate) (b : bool) : pstate := mkP (p_dst s) (p_sz s) b (p_width s) (p_ret s) (p_calls s) (p_grows s).
Definition called (s : pstate) (n : nat) : pstate := mkP (p_dst s) (p_sz s) (p_print s) (p_width s) (p_ret s) (n + p_calls s) (p_grows s).
Definition put (s : pstate) (b : list Z) (w : Z) : pstate :=
  mkP (p_dst s ++ b) (p_sz s) (p_print s) (p_width s + w) (p_ret s) (p_calls s) (p_grows s).
Definition is_int (x : Z) : bool := (-2147483648 <=? x) && (x <=? INT_MAX).

(** [ret += n] (utf8.c:178-179, 203-204). *)
Definition add_ret (s : pstate) (n : Z) : pout :=
  if p_ret s >=? 0 then (if is_int (p_ret s + n) then PGo (set_ret s (p_ret s + n)) else PUndef) else PGo s.

(** utf8.c:163-181: a printable character, the bytes [p], of width [w].
    [max_width - w] is checked for overflow even where the code skips it; it
    cannot overflow for the widths callers pass. *)
Definition show (maxsz max_width : Z) (p : list Z) (w : Z) (s : pstate) : pout :=
  let len := zlen p in
  if negb (is_int (max_width - w)) then PUndef else
  let s := if p_print s && ((zlen (p_dst s) >=? maxsz - len) || (p_width s >? max_width - w)) then set_print s false else s in
  if p_print s then
    match grow_dst s maxsz len with
    | None => PStop (set_ret s (-1))
    | Some s =>
        if negb (is_int (p_width s + w)) || (zlen (p_dst s) + len >? p_sz s) then PUndef
        else add_ret (put s p w) len
    end
  else add_ret s len.

(** utf8.c:185-205: the bytes of [p], escaped one by one. *)
Fixpoint escape (maxsz max_width : Z) (p : list Z) (s : pstate) : pout :=
  match p with
  | [] => PGo s
  | c :: r =>
      if negb (is_int (max_width - 4)) then PUndef else
      let s := if p_print s && ((zlen (p_dst s) >=? maxsz - 4) || (p_width s >? max_width - 4)) then set_print s false else s in
      let next :=
        if p_print s then
          match grow_dst s maxsz 4 with
          | None => PStop (set_ret s (-1))
          | Some s =>
              let t := vis isgraph iscntrl c (Z.lor VIS_OCTAL VIS_ALL) in
              if negb (is_int (p_width s + zlen t)) || (zlen (p_dst s) + zlen t + 1 >? p_sz s) then PUndef
              else add_ret (put s t (zlen t)) (zlen t)
          end
        else add_ret s 4 in
      match next with
      | PGo s => escape maxsz max_width r s
      | other => other
      end
  end.

(** utf8.c:138-208: one character at [src]; the result with the source left. *)
Definition one_char (wp_null : bool) (maxsz max_width : Z) (src : list Z) (s : pstate) : pout * list Z :=
  match mbtowc (p_calls s) src with
  | None =>
      let s := called s 2 in
      if dangerous_locale then (PStop (set_ret s (-1)), src)
      else (escape maxsz max_width (ztake 1 src) s, zdrop 1 src)
  | Some (wc, len) =>
      let s := called s 1 in
      if wp_null && ((wc =? 10) || (wc =? 13) || (wc =? 9)) then (show maxsz max_width (ztake len src) 0 s, zdrop len src)
      else
        let w := wcwidth wc in
        if (w =? -1) && dangerous_locale then (PStop (set_ret s (-1)), src)
        else if w >=? 0 then (show maxsz max_width (ztake len src) w s, zdrop len src)
        else (escape maxsz max_width (ztake len src) s, zdrop len src)
  end.

(** The loop; [None] when the fuel runs out (excluded by the theorems for
    decoders that consume at least one byte). *)
Fixpoint chars (fuel : nat) (wp_null : bool) (maxsz max_width : Z) (src : list Z) (s : pstate) : option pout :=
  match fuel with
  | O => None
  | S k =>
      match src with
      | [] => Some (PGo s)
      | _ =>
          match one_char wp_null maxsz max_width src s with
          | (PGo s', r) => chars k wp_null maxsz max_width r s'
          | (other, _) => Some other
          end
      end
  end.

(** What vasnmprintf leaves behind. *)
Inductive presult :=
| RDone (str : list Z) (width : Z) (ret : Z)   (** *str set, *wp if wp is not NULL, value returned *)
| RFail                                        (** *str NULL, *wp zero, -1 *)
| RUndef
| RFuel.

(** A C string up to its NUL. *)
Fixpoint c_str (s : list Z) : list Z :=
  match s with
  | [] => []
  | b :: r => if b =? 0 then [] else b :: c_str r
  end.

(** utf8.c:103-237 vasnmprintf.  [formatted] is what vasprintf produced
    ([None] for an error); [wp] is the width pointed to, if wp is not NULL;
    [mem] says whether malloc succeeds. *)
Definition vasnmprintf (formatted : option (list Z)) (maxsz : Z) (wp : option Z) (mem : bool) : presult :=
  match formatted with
  | None => RFail
  | Some f =>
      if zlen f =? 0 then RDone [] 0 0
      else
        let src := c_str f in
        if negb mem then RFail
        else
          let maxsz := if maxsz >? INT_MAX then INT_MAX else maxsz in
          let max_width := match wp with None => INT_MAX | Some w => w end in
          let wp_null := match wp with None => true | Some _ => false end in
          match chars (S (length src)) wp_null maxsz max_width src (mkP [] (zlen src + 1) true 0 0 0 0) with
          | None => RFuel
          | Some PUndef => RUndef
          | Some (PGo s) | Some (PStop s) =>
              if zlen (p_dst s) <? p_sz s then
                RDone (p_dst s) (p_width s) (if (p_ret s <? maxsz) && negb (p_print s) then -1 else p_ret s)
              else RUndef
          end
  end.

(** openbsd-compat strlcpy: at most [siz - 1] bytes. *)
Definition strlcpy (src : list Z) (siz : Z) : list Z := ztake (siz - 1) src.

(** utf8.c:239-255 snmprintf: the contents of the caller's buffer of [sz] > 0
    bytes and the value returned. *)
Definition snmprintf (formatted : option (list Z)) (sz : Z) (wp : option Z) (mem : bool) : option (list Z * Z) :=
  match vasnmprintf formatted sz wp mem with
  | RDone str _ ret => Some (strlcpy str sz, ret)
  | RFail => Some ([], -1)
  | RUndef | RFuel => None
  end.

(** utf8.c:276-290 vfmprintf: the bytes passed to fputs, if any, and the value
    returned when fputs succeeds. *)
Definition vfmprintf (formatted : option (list Z)) (mem : bool) : option (option (list Z) * Z) :=
  match vasnmprintf formatted INT_MAX None mem with
  | RDone str _ ret => Some (if ret <? 0 then (None, -1) else (Some str, ret))
  | RFail => Some (None, -1)
  | RUndef | RFuel => None
  end.
End Utf.
