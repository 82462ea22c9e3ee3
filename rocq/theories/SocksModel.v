(** Dynamic forwarding: the SOCKS requests of channels.c, in both directions.

    A channel's buffers are lists.  Output is kept as everything ever appended: that
    it is written to the client as it stands is C26.  The username of SOCKS4 is only
    logged.  inet_ntop of an IPv6 address is the parameter [ntop6]. *)
From Verif Require Import Base SshbufModel SshbufSpec MiscNumModel.
Local Open Scope Z_scope.

(** inet_ntoa, inet_ntop(AF_INET): a byte in decimal *)
Definition byte_text (n : Z) : list Z :=
  if n <? 10 then [48 + n]
  else if n <? 100 then [48 + n / 10; 48 + n mod 10]
  else [48 + n / 100; 48 + n / 10 mod 10; 48 + n mod 10].
Definition dotted (a b c d : Z) : list Z :=
  byte_text a ++ [46] ++ byte_text b ++ [46] ++ byte_text c ++ [46] ++ byte_text d.

(** What a decoder says: -1; 0; 0 after the method has been agreed on (the rest of
    the input); 1 with host, port, rest of the input and reply *)
Inductive said := Bad | More | Agreed (rest : list Z) | Ask (host : list Z) (port : Z) (rest reply : list Z).

(** channels.c:1475-1490: the loop that looks for [need] NULs; [i] is the index *)
Inductive scanned := Found | Missing | TooLong.
Fixpoint scan (need found i : Z) (p : list Z) : scanned :=
  match p with
  | [] => Missing
  | c :: r =>
      let found := if c =? 0 then found + 1 else found in
      if (c =? 0) && (found =? need) then Found
      else if 1024 <? i then TooLong else scan need found (i + 1) r
  end.
(** memchr(p, '\0', have) *)
Definition has_nul (l : list Z) : bool := existsb (fun c => c =? 0) l.
Definition NI_MAXHOST : Z := 1025.
(** channels.c:1539-1554: the command is looked at last *)
Definition finish4 (cmd p1 p2 : Z) (host rest : list Z) : said :=
  if negb (cmd =? 1) then Bad else Ask host (p1 * 256 + p2) rest [0; 90; 0; 0; 0; 0; 0; 0].
(** channels.c:1445-1553 channel_decode_socks4 *)
Definition decode4 (input : list Z) : said :=
  match input with
  | _ :: cmd :: p1 :: p2 :: a :: b :: c :: d :: r =>
      let need := if (a =? 0) && (b =? 0) && (c =? 0) && negb (d =? 0) then 2 else 1 in
      match scan need 0 8 r with
      | TooLong => Bad
      | Missing => More
      | Found =>
          if negb (has_nul r) then Bad
          else let r := zdrop (zlen (cstr r) + 1) r in
               if need =? 1 then finish4 cmd p1 p2 (dotted a b c d) r
               else if negb (has_nul r) then Bad
               else if NI_MAXHOST <? zlen (cstr r) + 1 then Bad
               else finish4 cmd p1 p2 (cstr r) (zdrop (zlen (cstr r) + 1) r)
      end
  | _ => More
  end.

Section Socks.
Variable ntop6 : list Z -> list Z.

Definition reply5 : list Z := [5; 0; 0; 1; 0; 0; 0; 0; 0; 0].
(** channels.c:1611-1688: the request; [q] is what follows the address type *)
Definition port_of (l : list Z) : Z := be_dec (ztake 2 l).
Definition fixed5 (n : Z) (text : list Z -> list Z) (q : list Z) : said :=
  if zlen q <? n + 2 then More
  else Ask (text (ztake n q)) (port_of (zdrop n q)) (zdrop (n + 2) q) reply5.
Definition dotted_of (l : list Z) : list Z := dotted (nth 0 l 0) (nth 1 l 0) (nth 2 l 0) (nth 3 l 0).
Definition decode5_request (input : list Z) : said :=
  match input with
  | v :: cmd :: rsv :: atyp :: n :: r =>
      if negb (v =? 5) || negb (cmd =? 1) || negb (rsv =? 0) then Bad
      else if atyp =? 1 then fixed5 4 dotted_of (n :: r)
      else if atyp =? 3 then
        if zlen r <? n + 2 then More
        else if NI_MAXHOST <=? n then Bad
        else Ask (cstr (ztake n r)) (port_of (zdrop n r)) (zdrop (n + 2) r) reply5
      else if atyp =? 4 then fixed5 16 ntop6 (n :: r)
      else Bad
  | _ => More
  end.
(** channels.c:1564-1689 channel_decode_socks5; [auth]: SSH_SOCKS5_AUTHDONE *)
Definition decode5 (auth : bool) (input : list Z) : said :=
  match input with
  | [] => More
  | v :: _ =>
      if negb (v =? 5) then Bad
      else if auth then decode5_request input
      else match input with
           | _ :: n :: r =>
               if zlen r <? n then More
               else if existsb (fun c => c =? 0) (ztake n r) then Agreed (zdrop n r)
               else Bad
           | _ => More
           end
  end.
(** channels.c:1724-1746, 1790-1805: which protocol *)
Definition decode (auth : bool) (input : list Z) : said :=
  if zlen input <? 3 then More
  else let v := nth 0 input 0 in
       if v =? 4 then decode4 input else if v =? 5 then decode5 auth input else Bad.

(** ** The client's own listener (ssh -D) *)
(** SSH_CHANNEL_DYNAMIC; SSH_CHANNEL_OPENING, with what port_open_helper asks the
    server for; marked dead *)
Inductive phase := Waiting | Opening (host : list Z) (port : Z) | Dead.
Record chan := mkC { c_phase : phase; c_auth : bool; c_in : list Z; c_out : list Z }.
Definition fresh : chan := mkC Waiting false [] [].
(** channels.c:1717-1761 channel_pre_dynamic.  A dead channel's buffers are freed. *)
Definition pre_dynamic (s : chan) : chan :=
  match c_phase s with
  | Waiting =>
      match decode (c_auth s) (c_in s) with
      | Bad => mkC Dead (c_auth s) [] (c_out s)
      | More => s
      | Agreed r => mkC Waiting true r (c_out s ++ [5; 0])
      | Ask h p r o => mkC (Opening h p) (c_auth s) r (c_out s ++ o)
      end
  | _ => s
  end.
(** channel_handle_rfd: bytes from the SOCKS client are appended to the input.  While
    the channel is being opened nothing is read; what is read later comes after what
    is there. *)
Definition receive (b : list Z) (s : chan) : chan :=
  match c_phase s with Dead => s | _ => mkC (c_phase s) (c_auth s) (c_in s ++ b) (c_out s) end.
Inductive event := Bytes (b : list Z) | Handler.
Definition step (s : chan) (e : event) : chan := match e with Bytes b => receive b s | Handler => pre_dynamic s end.
Definition play (evs : list event) : chan := fold_left step evs fresh.

(** ** A listener on the other side (ssh -R port): the request comes as channel data *)
Section Reverse.
Variable perm : Type.
Variable open_match : perm -> list Z -> Z -> bool.
Variable admin : list perm.
(** connect_to_helper gives a socket *)
Variable connects : list Z -> Z -> bool.
(** channels.c:4961-4974 rdynamic_connect_finish *)
Definition permitted (h : list Z) (p : Z) : bool :=
  match admin with [] => true | _ => existsb (fun a => open_match a h p) admin end.
(** SSH_CHANNEL_RDYNAMIC_OPEN, SSH_CHANNEL_RDYNAMIC_FINISH with the target, closed *)
Inductive rphase := RWaiting | RConnecting (host : list Z) (port : Z) | RClosed.
(** [r_out]: c->output, the bytes received; [r_in]: c->input, to be sent; [r_sent]:
    channel data sent *)
Record rchan := mkR { r_phase : rphase; r_auth : bool; r_out : list Z; r_in : list Z; r_sent : list Z; r_window : Z; r_eof : bool }.
Definition rfresh (window : Z) : rchan := mkR RWaiting false [] [] [] window false.
(** channels.c:1811-1822 *)
Definition flush (s : rchan) : rchan :=
  let len := zlen (r_in s) in
  if (0 <? len) && (len <? r_window s)
  then mkR (r_phase s) (r_auth s) (r_out s) [] (r_sent s ++ r_in s) (r_window s - len) (r_eof s) else s.
(** channels.c:1772-1827 channel_before_prepare_io_rdynamic *)
Definition pre_rdynamic (s : rchan) : rchan :=
  match r_phase s with
  | RWaiting =>
      if r_eof s then mkR RClosed (r_auth s) [] (r_in s) (r_sent s) (r_window s) (r_eof s)
      else if zlen (r_out s) <? 3 then s
      else match decode (r_auth s) (r_out s) with
           | Bad => mkR RClosed (r_auth s) (r_out s) (r_in s) (r_sent s) (r_window s) (r_eof s)
           | More => flush s
           | Agreed r => flush (mkR RWaiting true r (r_in s ++ [5; 0]) (r_sent s) (r_window s) (r_eof s))
           | Ask h p r o =>
               mkR (if permitted h p && connects h p then RConnecting h p else RClosed)
                   (r_auth s) r (r_in s ++ o) (r_sent s) (r_window s) (r_eof s)
           end
  | _ => s
  end.
Inductive revent := RBytes (b : list Z) | REof | RAdjust (n : Z) | RHandler.
Definition rstep (s : rchan) (e : revent) : rchan :=
  match e with
  | RBytes b => mkR (r_phase s) (r_auth s) (r_out s ++ b) (r_in s) (r_sent s) (r_window s) (r_eof s)
  | REof => mkR (r_phase s) (r_auth s) (r_out s) (r_in s) (r_sent s) (r_window s) true
  | RAdjust n => mkR (r_phase s) (r_auth s) (r_out s) (r_in s) (r_sent s) (r_window s + n) (r_eof s)
  | RHandler => pre_rdynamic s
  end.
Definition rplay (window : Z) (evs : list revent) : rchan := fold_left rstep evs (rfresh window).
End Reverse.
End Socks.
