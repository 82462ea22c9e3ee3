(** Executable model of the base64 routines: openbsd-compat/base64.c (b64_ntop,
    b64_pton) and their callers in sshbuf-misc.c (sshbuf_dtob64, sshbuf_b64tod,
    sshbuf_dtourlb64).

    The character buffer that b64_pton fills is an explicit list of bytes; a
    store or load outside it is the distinct outcome [PUb].  Source strings are
    the characters before the terminating NUL.  u_int arithmetic wraps at 2^32.
    Simplifications: the target pointer is never null (no caller in the
    repository passes null); isspace is that of the C locale; allocation does
    not fail. *)
From Coq Require Import String.
From Verif Require Import Base SshbufModel AuthOptModel.

(** base64.c 64-66 *)
Definition Base64 : list Z := bs "ABCDEFGHIJKLMNOPQRSTUVWXYZabcdefghijklmnopqrstuvwxyz0123456789+/".
Definition Pad64 : Z := 61.

(** isspace(3) in the C locale: tab, newline, vertical tab, form feed, carriage
    return and space *)
Definition isspace (c : Z) : bool := ((9 <=? c) && (c <=? 13)) || (c =? 32).

Definition b64_char (v : Z) : Z := nth (Z.to_nat v) Base64 0.

(** The result of b64_ntop: the text written, -1, or a store out of bounds. *)
Inductive nres := NOk (text : list Z) | NErr | NUb.

(** target[datalength++] = c, with [out] what has been written so far
    (datalength = its length): base64.c 149-152, 168-174 *)
Definition emit (targsize : Z) (c : Z) (out : option (list Z)) : option (list Z) :=
  match out with
  | Some o => if zlen o <? targsize then Some (o ++ [c]) else None
  | None => None
  end.

(** b64_ntop, base64.c 127-181.  The remaining source is the list. *)
Fixpoint b64_ntop_go (src : list Z) (targsize : Z) (out : list Z) : nres :=
  match src with
  | i0 :: i1 :: i2 :: r =>
      let o0 := Z.shiftr i0 2 in
      let o1 := u8 (Z.shiftl (Z.land i0 3) 4 + Z.shiftr i1 4) in
      let o2 := u8 (Z.shiftl (Z.land i1 15) 2 + Z.shiftr i2 6) in
      let o3 := Z.land i2 63 in
      if targsize <? zlen out + 4 then NErr else
      match emit targsize (b64_char o3) (emit targsize (b64_char o2)
              (emit targsize (b64_char o1) (emit targsize (b64_char o0) (Some out)))) with
      | Some out' => b64_ntop_go r targsize out'
      | None => NUb
      end
  | [] => if targsize <=? zlen out then NErr else NOk out
  | i0 :: tl =>
      let i1 := match tl with x :: _ => x | [] => 0 end in
      let o0 := Z.shiftr i0 2 in
      let o1 := u8 (Z.shiftl (Z.land i0 3) 4 + Z.shiftr i1 4) in
      let o2 := u8 (Z.shiftl (Z.land i1 15) 2 + Z.shiftr 0 6) in
      if targsize <? zlen out + 4 then NErr else
      let c2 := match tl with [] => Pad64 | _ => b64_char o2 end in
      match emit targsize Pad64 (emit targsize c2
              (emit targsize (b64_char o1) (emit targsize (b64_char o0) (Some out)))) with
      | Some out' => if targsize <=? zlen out' then NErr else NOk out'
      | None => NUb
      end
  end.
Definition b64_ntop (src : list Z) (targsize : Z) : nres := b64_ntop_go src targsize [].

(** strchr(Base64, ch) - Base64: base64.c 211 *)
Fixpoint index_of (c : Z) (l : list Z) (i : Z) : option Z :=
  match l with [] => None | x :: r => if x =? c then Some i else index_of c r (i + 1) end.
Definition b64_pos (c : Z) : option Z := index_of c Base64 0.

(** Stores and loads in the target *)
Definition tput (t : list Z) (i v : Z) : option (list Z) :=
  if (0 <=? i) && (i <? zlen t) then Some (ztake i t ++ v :: zdrop (i + 1) t) else None.
Definition tget (t : list Z) (i : Z) : option Z :=
  if (0 <=? i) && (i <? zlen t) then Some (nth (Z.to_nat i) t 0) else None.

(** The result of b64_pton: the count and the target afterwards, -1, or an
    access out of bounds. *)
Inductive pres := POk (n : Z) (t : list Z) | PErr | PUb.

(** base64.c 283-297: only white space may follow, and the extra bits are zero *)
Fixpoint b64_trail (src : list Z) (ti : Z) (t : list Z) : pres :=
  match src with
  | [] => match tget t ti with
          | None => PUb
          | Some v => if v =? 0 then POk ti t else PErr
          end
  | ch :: r => if isspace ch then b64_trail r ti t else PErr
  end.
(** base64.c 268-277: the second pad character *)
Fixpoint b64_pad2 (src : list Z) (ti : Z) (t : list Z) : pres :=
  match src with
  | [] => PErr
  | ch :: r => if isspace ch then b64_pad2 r ti t
               else if ch =? Pad64 then b64_trail r ti t else PErr
  end.
(** base64.c 261-298: after a pad character was read in state [st] *)
Definition b64_pad (src : list Z) (st ti : Z) (t : list Z) : pres :=
  if st =? 2 then b64_pad2 src ti t
  else if st =? 3 then b64_trail src ti t
  else PErr.

(** base64.c 204-254 and 299-309: the loop over the characters.  The stored
    values are truncated to u_char. *)
Fixpoint b64_pton_go (src : list Z) (st ti : Z) (t : list Z) : pres :=
  match src with
  | [] => if st =? 0 then POk ti t else PErr
  | ch :: r =>
      if isspace ch then b64_pton_go r st ti t
      else if ch =? Pad64 then b64_pad r st ti t
      else match b64_pos ch with
      | None => PErr
      | Some v =>
          if st =? 0 then
            if zlen t <=? ti then PErr else
            match tput t ti (u8 (Z.shiftl v 2)) with
            | None => PUb
            | Some t1 => b64_pton_go r 1 ti t1
            end
          else if st =? 1 then
            if zlen t <=? u32 (ti + 1) then PErr else
            match tget t ti with
            | None => PUb
            | Some o =>
                match tput t ti (u8 (Z.lor o (Z.shiftr v 4))) with
                | None => PUb
                | Some t1 =>
                    match tput t1 (u32 (ti + 1)) (u8 (Z.shiftl (Z.land v 15) 4)) with
                    | None => PUb
                    | Some t2 => b64_pton_go r 2 (u32 (ti + 1)) t2
                    end
                end
            end
          else if st =? 2 then
            if zlen t <=? u32 (ti + 1) then PErr else
            match tget t ti with
            | None => PUb
            | Some o =>
                match tput t ti (u8 (Z.lor o (Z.shiftr v 2))) with
                | None => PUb
                | Some t1 =>
                    match tput t1 (u32 (ti + 1)) (u8 (Z.shiftl (Z.land v 3) 6)) with
                    | None => PUb
                    | Some t2 => b64_pton_go r 3 (u32 (ti + 1)) t2
                    end
                end
            end
          else
            if zlen t <=? ti then PErr else
            match tget t ti with
            | None => PUb
            | Some o =>
                match tput t ti (u8 (Z.lor o v)) with
                | None => PUb
                | Some t1 => b64_pton_go r 0 (u32 (ti + 1)) t1
                end
            end
      end
  end.
(** b64_pton, base64.c 193-310 *)
Definition b64_pton (src t : list Z) : pres := b64_pton_go src 0 0 t.

(** The result of a buffer function: the destination afterwards, a negative
    error code, or an out-of-bounds access. *)
Inductive bres := BOk (b : list Z) | BErr (code : Z) | BUb.
Definition of_put (m : option (list Z)) : bres :=
  match m with Some b => BOk b | None => BErr SSH_ERR_NO_BUFFER_SPACE end.

(** The wrapping loop: sshbuf-misc.c 110-117; [i] counts the characters *)
Fixpoint wrap_go (s : list Z) (i : Z) (m : option (list Z)) : option (list Z) :=
  match s with
  | [] => if u64 (i - 1) mod 70 =? 69 then m else put [10] m
  | c :: r =>
      let m1 := put [c] m in
      wrap_go r (i + 1) (if i mod 70 =? 69 then put [10] m1 else m1)
  end.
(** sshbuf_dtob64, sshbuf-misc.c 93-127.  [b64] is the destination's content. *)
Definition sshbuf_dtob64 (d b64 : list Z) (wrap : bool) : bres :=
  if SIZE_MAX / 2 <=? zlen d then BErr SSH_ERR_INVALID_ARGUMENT else
  if zlen d =? 0 then BOk b64 else
  let slen := u64 ((zlen d + 2) / 3 * 4 + 1) in
  match b64_ntop d slen with
  | NUb => BUb
  | NErr => BErr SSH_ERR_INTERNAL_ERROR
  | NOk s => of_put (if wrap then wrap_go s 0 (Some b64) else put s (Some b64))
  end.
(** sshbuf_b64tod, sshbuf-misc.c 146-169.  The scratch buffer has the length of
    the text; [junk] is what the allocator left in it. *)
Definition sshbuf_b64tod (buf b64 : list Z) (junk : Z -> Z) : bres :=
  let plen := zlen b64 in
  if plen =? 0 then BOk buf else
  match b64_pton b64 (map (fun i => junk (Z.of_nat i)) (seq 0 (length b64))) with
  | PUb => BUb
  | PErr => BErr SSH_ERR_INVALID_FORMAT
  | POk n p => of_put (put (ztake n p) (Some buf))
  end.
(** sshbuf_dtourlb64, sshbuf-misc.c 171-212: the loop that drops trailing pads
    works on the reversed text *)
Fixpoint drop_pads (rev_b : list Z) : option (list Z) :=
  match rev_b with
  | [] => None
  | c :: r => match r with
              | [] => None
              | _ => if c =? Pad64 then drop_pads r else Some rev_b
              end
  end.
Definition url_char (c : Z) : Z := if c =? 43 then 45 else if c =? 47 then 95 else c.
Definition sshbuf_dtourlb64 (d b64 : list Z) (wrap : bool) : bres :=
  match sshbuf_dtob64 d [] wrap with
  | BOk b =>
      match drop_pads (rev b) with
      | None => BErr SSH_ERR_INTERNAL_ERROR
      | Some rb => of_put (put (map url_char (rev rb)) (Some b64))
      end
  | e => e
  end.
