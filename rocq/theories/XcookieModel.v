(** X11 forwarding at the client: the cookie told to the server and the substitution
    of the real one, channels.c.

    A channel waits until the first packet of the X11 client is complete; what is
    appended to its output while it is open is written to the display as it stands
    (C26).  sscanf of two hexadecimal digits is the parameter [scan2x]; random data is
    an argument.  Windows and the end of channels are left out. *)
From Coq Require Import String.
From Verif Require Import Base Text MiscNumModel.
Local Open Scope Z_scope.

(** ** The first packet *)
(** x11_saved_proto, x11_fake_data, x11_saved_data; x11_refuse_time, 0 if none *)
Record xcfg := mkXC { x_proto : list Z; x_fake : list Z; x_saved : list Z; x_deadline : Z }.
Inductive helped := HMore | HBad | HOk (b : list Z).
(** (n + 3) & ~3 *)
Definition pad4 (n : Z) : Z := Z.land (n + 3) (Z.lnot 3).
(** ucp[i] *)
Definition byte (b : list Z) (i : Z) : Z := nth (Z.to_nat i) b 0.
(** memcpy(b + off, d, len) *)
Definition overwrite (b : list Z) (off : Z) (d : list Z) : list Z := ztake off b ++ d ++ zdrop (off + zlen d) b.
(** channels.c:1341-1372: the lengths are known *)
Definition check_packet (c : xcfg) (b : list Z) (proto_len data_len : Z) : helped :=
  if zlen b <? 12 + pad4 proto_len + pad4 data_len then HMore
  else if negb (proto_len =? zlen (x_proto c)) then HBad
  else if negb (beqb (ztake proto_len (zdrop 12 b)) (x_proto c)) then HBad
  else if negb (data_len =? zlen (x_fake c)) then HBad
  else if negb (beqb (ztake (zlen (x_fake c)) (zdrop (12 + pad4 proto_len) b)) (x_fake c)) then HBad
  else if negb (zlen (x_fake c) =? zlen (x_saved c)) then HBad
  else HOk (overwrite b (12 + pad4 proto_len) (x_saved c)).
(** channels.c:1323-1339 *)
Definition helper (c : xcfg) (b : list Z) : helped :=
  if zlen b <? 12 then HMore
  else if byte b 0 =? 66 then check_packet c b (256 * byte b 6 + byte b 7) (256 * byte b 8 + byte b 9)
  else if byte b 0 =? 108 then check_packet c b (byte b 6 + 256 * byte b 7) (byte b 8 + 256 * byte b 9)
  else HBad.
(** channels.c:1308-1373 x11_open_helper *)
Definition x11_open_helper (c : xcfg) (now : Z) (b : list Z) : helped :=
  if negb (x_deadline c =? 0) && (x_deadline c <=? now) then HBad else helper c b.

(** SSH_CHANNEL_X11_OPEN with its output; SSH_CHANNEL_OPEN with all that was appended
    to the output; forcibly closed *)
Inductive xchan := XWait (b : list Z) | XOpen (out : list Z) | XShut.
(** channels.c:3402-3470 channel_input_data, then 1401-1419 channel_pre_x11_open; a turn of the
    loop without input is an empty segment *)
Definition xstep (c : xcfg) (s : xchan) (e : Z * list Z) : xchan :=
  match s with
  | XWait b => match x11_open_helper c (fst e) (b ++ snd e) with
               | HMore => XWait (b ++ snd e)
               | HBad => XShut
               | HOk o => XOpen o
               end
  | XOpen o => XOpen (o ++ snd e)
  | XShut => XShut
  end.
Definition xrun (c : xcfg) (es : list (Z * list Z)) : xchan := fold_left (xstep c) es (XWait []).

(** ** The request *)
Section Request.
Variable scan2x : list Z -> option Z.

(** channels.c:5313-5319; None: fatal *)
Fixpoint unhex (n : nat) (data : list Z) : option (list Z) :=
  match n with
  | 0%nat => Some []
  | S n => match scan2x data with
           | None => None
           | Some v => match unhex n (tl (tl data)) with Some r => Some (v mod 256 :: r) | None => None end
           end
  end.
Definition hexdig (n : Z) : Z := if n <? 10 then 48 + n else 87 + n.
(** misc.c:1553-1570 tohex of [l] bytes; None: bytes outside the object are read *)
Definition tohex (p : list Z) (l : Z) : option (list Z) :=
  if 65536 <? l then Some (bs "tohex: length > 65536")
  else if zlen p <? l then None
  else Some (flat_map (fun c => [hexdig (c / 16); hexdig (c mod 16)]) (ztake l p)).
Fixpoint after (c : Z) (s : list Z) : option (list Z) :=
  match s with [] => None | x :: r => if x =? c then Some r else after c r end.
(** channels.c:5299-5305; the search for the dot starts at the colon *)
Definition screen_of (disp : list Z) : Z :=
  match after 58 disp with
  | None => 0
  | Some r => match after 46 r with
              | None => 0
              | Some n => match strtonum n 0 400 with inl v => v | inr _ => 0 end
              end
  end.
(** What the session keeps: x11_saved_display; x11_saved_proto, x11_saved_data and
    x11_fake_data *)
Record xst := mkXS { s_disp : option (list Z); s_auth : option (list Z * list Z * list Z) }.
(** A request: display, protocol, cookie in hexadecimal, and what arc4random_buf yields *)
Record xreq := mkXR { r_disp : list Z; r_proto : list Z; r_data : list Z; r_rnd : Z -> list Z }.
(** Ignored; fatal; undefined behaviour; sent with protocol, cookie, screen *)
Inductive xsent := SIgnored | SFatal | SOutside | SSent (proto cookie : list Z) (screen : Z).
(** channels.c:5280-5341 x11_request_forwarding_with_spoofing; cookies are shorter than
    2^31 *)
Definition x11_request (s : xst) (q : xreq) : xst * xsent :=
  let data_len := zlen (r_data q) / 2 in
  if match s_disp s with Some d => negb (beqb (r_disp q) d) | None => false end then (s, SIgnored) else
  match match s_auth s with
        | Some a => Some a
        | None => match unhex (Z.to_nat data_len) (r_data q) with
                  | Some v => Some (r_proto q, v, r_rnd q data_len)
                  | None => None
                  end
        end with
  | None => (mkXS (Some (r_disp q)) None, SFatal)
  | Some a =>
      (mkXS (Some (r_disp q)) (Some a),
       match tohex (snd a) data_len with
       | None => SOutside
       | Some h => SSent (r_proto q) h (screen_of (r_disp q))
       end)
  end.
Fixpoint requests (s : xst) (qs : list xreq) : xst * list xsent :=
  match qs with
  | [] => (s, [])
  | q :: r => let (s1, o) := x11_request s q in let (s2, os) := requests s1 r in (s2, o :: os)
  end.
End Request.
