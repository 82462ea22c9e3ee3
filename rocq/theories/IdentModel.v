(** The exchange of identification strings, kex.c.

    Input is what has been received so far; it is read byte by byte, so what is left
    over is untouched.  sscanf of the string (major, minor, software) and the patterns
    of compat.c for probes and scanners are parameters.  Timeouts and failing reads and
    writes are left out. *)
From Coq Require Import String.
From Verif Require Import Base Text.
Local Open Scope Z_scope.

(** kex.c:1250-1259: what is sent; [soft] is SSH_VERSION *)
Definition our_version (soft addendum : list Z) : list Z :=
  bs "SSH-2.0-" ++ soft ++ (if zlen addendum =? 0 then [] else 32 :: addendum).
Definition our_banner (soft addendum : list Z) : list Z := our_version soft addendum ++ [13; 10].

Inductive lres := LMore | LBad | LLine (l rest : list Z).
(** kex.c:1294-1346: one line; [cur] is peer_version, [nl] is expect_nl *)
Fixpoint read_line (cur : list Z) (nl : bool) (s : list Z) : lres :=
  match s with
  | [] => LMore
  | c :: r => if c =? 13 then read_line cur true r
              else if c =? 10 then LLine cur r
              else if (c =? 0) || nl then LBad
              else if 8192 <? zlen (cur ++ [c]) then LBad
              else read_line (cur ++ [c]) nl r
  end.
(** kex.c:1348-1350 *)
Definition is_ident (l : list Z) : bool := (4 <? zlen l) && beqb (ztake 4 l) (bs "SSH-").
Inductive ires := IMore | IBad | IOk (l rest : list Z).
(** kex.c:1284-1369: the lines; [n] are still allowed *)
Fixpoint read_ident (n : nat) (server : bool) (s : list Z) : ires :=
  match n with
  | 0%nat => IBad
  | S n => match read_line [] false s with
           | LMore => IMore
           | LBad => IBad
           | LLine l r => if is_ident l then IOk l r
                          else if server then IBad
                          else read_ident n server r
           end
  end.
(** SSH_MAX_PRE_BANNER_LINES *)
Definition max_lines : nat := 1024.

Section Ident.
Variable scan : list Z -> option (Z * Z * list Z).
Variable unwanted : list Z -> bool.   (* SSH_BUG_PROBE or SSH_BUG_SCANNER *)
(** Waiting; SSH_ERR_INVALID_FORMAT; SSH_ERR_NO_PROTOCOL_VERSION; SSH_ERR_CONN_CLOSED;
    the peer's version and the input that is left *)
Inductive xres := XWait | XInvalid | XMismatch | XClosed | XPeer (v rest : list Z).
(** kex.c:1234-1445 kex_exchange_identification, from the reading on *)
Definition exchange (server : bool) (s : list Z) : xres :=
  match read_ident max_lines server s with
  | IMore => XWait
  | IBad => XInvalid
  | IOk l rest =>
      match scan l with
      | None => XInvalid
      | Some (major, minor, soft) =>
          if negb ((major =? 2) || ((major =? 1) && (minor =? 99))) then XMismatch
          else if server && unwanted soft then XClosed
          else XPeer l rest
      end
  end.
End Ident.
