(** The legacy copy protocol of scp: scp.c source, rsource, do_times (the
    sender), sink, response, run_err, note_err, verifydir, allocbuf (the
    receiver), find_brace, brace_expand_one, brace_expand (the check of the
    names received against the request).

    The receiver is a function of the bytes received and of the answers of the
    operating system.  Its effects, replies included, go to a trace, newest
    first; an answer of the operating system may depend on the whole trace.  Not
    modelled: progress meter, messages (only that one is sent), bandwidth limit,
    failure of a write to the peer (the code ignores it), memory exhaustion
    (fatal), signals. *)
From Coq Require Import String.
From Verif Require Import Base Text AddrModel MiscNumModel.
Local Open Scope Z_scope.

Inductive kind := KDir | KReg | KOther.
Definition is_dir (k : option kind) : bool := match k with Some KDir => true | _ => false end.
Definition is_some {A} (x : option A) : bool := match x with Some _ => true | None => false end.

(** mtime seconds, microseconds; atime seconds, microseconds. *)
Record times := mkT { t_ms : Z; t_mu : Z; t_as : Z; t_au : Z }.

(** What the receiver does.  The calls on the open file carry its path. *)
Inductive eff :=
| EOk                                  (* a zero byte to the peer *)
| EErr                                 (* an error message to the peer *)
| EStat (p : list Z)
| EMkdir (p : list Z) (m : Z)
| EChmod (p : list Z) (m : Z)
| EOpen (p : list Z) (m : Z)           (* O_WRONLY|O_CREAT *)
| EBuf (p : list Z)                    (* the fstat of allocbuf *)
| EWrite (p : list Z) (d : list Z)
| ETrunc (p : list Z) (n : Z)
| EFchmod (p : list Z) (m : Z)
| EClose (p : list Z)
| EUtimes (p : list Z) (t : times)     (* utimes of the file just closed *)
| EDtimes (p : list Z) (t : times).    (* utimes of a directory *)

(** The operating system: the answers to the call at the head of the trace.
    [os_blk] is what allocbuf makes of st_blksize (scp.c:2227-2249). *)
Record os := mkOs {
  os_stat : list eff -> option kind;
  os_ok : list eff -> bool;
  os_blk : list eff -> option positive
}.

(** Command line and process state: -p, -r, -T, target must be a directory (-d),
    the umask at the start, the path requested (NULL on a server), fnmatch(3). *)
Record conf := mkConf {
  c_p : bool; c_r : bool; c_T : bool; c_d : bool;
  c_umask : Z; c_src : option (list Z);
  c_fnmatch : list Z -> list Z -> bool
}.

Record st := mkSt { inp : list Z; tr : list eff; errs : Z; noted : bool }.
Definition emit (e : eff) (s : st) : st := mkSt (inp s) (e :: tr s) (errs s) (noted s).
Definition with_inp (i : list Z) (s : st) : st := mkSt i (tr s) (errs s) (noted s).
Definition incr (s : st) : st := mkSt (inp s) (tr s) (errs s + 1) (noted s).
(** scp.c:2126-2148 run_err; 2150-2181 note_err. *)
Definition run_err (s : st) : st := emit EErr (incr s).
Definition note (s : st) : st := mkSt (inp s) (tr s) (errs s + 1) true.
Definition note_if (b : bool) (s : st) : st := if b then note s else s.
Definition flush (s : st) : st :=
  if noted s then run_err (mkSt (inp s) (tr s) (errs s) false) else emit EOk s.

(** ** The sender: scp.c:736-752 do_times, 1392-1502 source, 1503-1556 rsource,
    for readable files and peers that answer each message with success.  A
    negative time is sent as zero by the code; here times are not negative. *)
Inductive tree :=
| TFile (n : list Z) (m : Z) (t : Z * Z) (d : list Z)
| TDir (n : list Z) (m : Z) (t : Z * Z) (l : list tree).

(** printf %lld and %llu (at most 20 digits), %04o for modes below 010000. *)
Fixpoint dec_digits (fuel : nat) (n : Z) : list Z :=
  match fuel with
  | O => []
  | S f => if n <? 10 then [48 + n] else dec_digits f (n / 10) ++ [48 + n mod 10]
  end.
Definition lld (n : Z) : list Z := dec_digits 20 n.
Definition oct4 (m : Z) : list Z := [48 + m / 512 mod 8; 48 + m / 64 mod 8; 48 + m / 8 mod 8; 48 + m mod 8].
Definition send_times (p : bool) (t : Z * Z) : list Z :=
  if p then bs "T" ++ lld (fst t) ++ bs " 0 " ++ lld (snd t) ++ bs " 0" ++ [10] else [].
Fixpoint send (p : bool) (t : tree) : list Z :=
  match t with
  | TFile n m tm d =>
      send_times p tm ++ bs "C" ++ oct4 m ++ bs " " ++ lld (zlen d) ++ bs " " ++ n ++ [10] ++ d ++ [0]
  | TDir n m tm l =>
      send_times p tm ++ bs "D" ++ oct4 m ++ bs " 0 " ++ n ++ [10] ++ flat_map (send p) l ++ bs "E" ++ [10]
  end.

(** ** Brace patterns *)
(** scp.c:780-832 find_brace.  [i] is the index of the head of the list.  None:
    invalid; Some None: no brace; Some (Some (start, end)). *)
Fixpoint find_brace (l : list Z) (i : Z) (inb : bool) (start : option Z) (lev : Z) : option (option (Z * Z)) :=
  match l with
  | [] => if is_some start || inb then None else Some None
  | c :: r =>
      if c =? 92 then match r with
                      | [] => find_brace r (i + 1) inb start lev
                      | _ :: r' => find_brace r' (i + 2) inb start lev
                      end
      else if c =? 91 then find_brace r (i + 1) true start lev
      else if c =? 93 then find_brace r (i + 1) false start lev
      else if (c =? 123) && negb inb then
        match r with
        | c2 :: r' => if c2 =? 125 then find_brace r' (i + 2) inb start lev
                      else find_brace r (i + 1) inb (match start with None => Some i | x => x end) (lev + 1)
        | [] => find_brace r (i + 1) inb (match start with None => Some i | x => x end) (lev + 1)
        end
      else if (c =? 125) && negb inb then
        match start with
        | None => None
        | Some s => if lev - 1 <=? 0 then Some (Some (s, i)) else find_brace r (i + 1) inb start (lev - 1)
        end
      else find_brace r (i + 1) inb start lev
  end.
(** scp.c:905-937, the loop of brace_expand_one over the text between the
    braces: the selections; None when invalid.  [sel] is the current selection,
    reversed.  [r] being empty is i == brace_end - 1. *)
Fixpoint selections (l : list Z) (inb : bool) (lev : Z) (sel : list Z) : option (list (list Z)) :=
  match l with
  | [] => if inb || (0 <? lev) then None else Some []
  | c :: r =>
      let inb' := if c =? 91 then true else if c =? 93 then false else inb in
      let lev' := if (c =? 123) && negb inb then lev + 1 else if (c =? 125) && negb inb then lev - 1 else lev in
      match r with
      | [] =>
          if inb' || (0 <? lev') then selections r inb' lev' (c :: sel)
          else option_map (cons (rev (c :: sel))) (selections r inb' lev' [])
      | c2 :: r2 =>
          if c =? 92 then
            if (c2 =? 44) && negb (is_nil r2) then
              if inb' || (0 <? lev') then selections r2 inb' lev' (c2 :: c :: sel)
              else option_map (cons (rev (c :: sel))) (selections r2 inb' lev' [])
            else if is_nil r2 then
              if inb' || (0 <? lev') then selections r2 inb' lev' (c2 :: c :: sel)
              else option_map (cons (rev (c2 :: c :: sel))) (selections r2 inb' lev' [])
            else selections r2 inb' lev' (c2 :: c :: sel)
          else if c =? 44 then
            if inb' || (0 <? lev') then selections r inb' lev' (c :: sel)
            else option_map (cons (rev sel)) (selections r inb' lev' [])
          else selections r inb' lev' (c :: sel)
      end
  end.
(** scp.c:834-874 emit_expansion, 876-949 brace_expand_one: None invalid, Some
    None nothing to expand. *)
Definition expand_one (p : list Z) : option (option (list (list Z))) :=
  match find_brace p 0 false None 0 with
  | None => None
  | Some None => Some None
  | Some (Some (s, e)) =>
      match selections (ztake (e - s - 1) (zdrop (s + 1) p)) false 0 [] with
      | None => None
      | Some sels => Some (Some (map (fun x => ztake s p ++ x ++ zdrop (e + 1) p) sels))
      end
  end.
Definition last_component (p : list Z) : list Z :=
  match strrchr_cut 47 p with Some (_, r) => r | None => p end.
(** scp.c:952-1011 brace_expand.  The worklist is a stack: what an expansion
    yields is expanded at once, last selection first.  [fuel] bounds the depth,
    which is at most the number of braces.  None: fatal. *)
Inductive xres := XOk (l : list (list Z)) | XFatal | XFuel.
Fixpoint each (f : list Z -> xres) (l : list (list Z)) : xres :=
  match l with
  | [] => XOk []
  | p :: r => match f p with
              | XOk a => match each f r with XOk b => XOk (a ++ b) | x => x end
              | x => x
              end
  end.
Fixpoint brace_expand (fuel : nat) (p : list Z) : xres :=
  match fuel with
  | O => XFuel
  | S f => match expand_one p with
           | None => XFatal
           | Some None => XOk [last_component p]
           | Some (Some l) => each (brace_expand f) (rev l)
           end
  end.
Definition expand (p : list Z) : xres := brace_expand (S (length p)) p.

(** ** Reading *)
(** The do-while loops at scp.c:1715-1719 and 2094-2098: bytes up to and including a
    newline, at most [n] (at least 1).  None: the connection was lost. *)
Fixpoint read_line (n : nat) (l : list Z) : option (list Z * list Z) :=
  match n with
  | O => Some ([], l)
  | S k => match l with
           | [] => None
           | c :: r => if c =? 10 then Some ([c], r)
                       else match read_line k r with
                            | Some (a, b) => Some (c :: a, b)
                            | None => None
                            end
           end
  end.

Section Sink.
Variable Os : os.
Variable C : conf.

Definition call (e : eff) (s : st) : bool * st := (os_ok Os (e :: tr s), emit e s).
Definition stat (p : list Z) (s : st) : option kind * st := (os_stat Os (EStat p :: tr s), emit (EStat p) s).

(** scp.c:2078-2113 response; None: exit. *)
Definition response (s : st) : st * bool :=
  match inp s with
  | [] => (s, true)                                       (* lostconn *)
  | c :: r =>
      if c =? 0 then (with_inp r s, false)
      else match read_line (if (c =? 1) || (c =? 2) then 2047 else 2046) r with
           | None => (with_inp [] s, true)
           | Some (_, r') => (incr (with_inp r' s), negb (c =? 1))
           end
  end.

(** A number as isdigit + strtoull + delimiter reads it (scp.c:1747-1751, 1799-1803):
    ULLONG_MAX when too large. *)
Definition ULLONG_MAX : Z := U64 - 1.
Definition INT64_MAX : Z := 9223372036854775807.
Definition number (s : list Z) : option (Z * list Z) :=
  match digits s 0 false with
  | (v, true, c :: r) => if c =? 32 then Some (Z.min v ULLONG_MAX, r) else None
  | _ => None
  end.
(** strtol and its checks (scp.c:1755-1758, 1767-1770). *)
Definition usec (s : list Z) : Z * list Z :=
  match strtoll s with Some (v, _, r) => (v, r) | None => (0, s) end.
(** scp.c:1744-1772: what follows T.  None: protocol error; Some None: out of range. *)
Definition parse_times (s : list Z) : option (option times) :=
  match number s with
  | None => None
  | Some (ms, s1) =>
      let '(mu, s2) := usec s1 in
      match s2 with
      | [] => None
      | c :: s3 =>
          if negb (c =? 32) || (mu <? 0) || (999999 <? mu) then None
          else match number s3 with
               | None => None
               | Some (a, s4) =>
                   let '(au, s5) := usec s4 in
                   if negb (is_nil s5) || (au <? 0) || (999999 <? au) then None
                   else if (INT64_MAX <? ms) || (INT64_MAX <? a) then Some None
                   else Some (Some (mkT ms mu a au))
               end
      end
  end.
(** scp.c:1788-1806: what follows C or D: mode, size and name. *)
Definition is_oct (c : Z) : bool := (48 <=? c) && (c <=? 55).
Definition parse_ctl (s : list Z) : option (Z * Z * list Z) :=
  match s with
  | a :: b :: c :: d :: sp :: r =>
      if is_oct a && is_oct b && is_oct c && is_oct d && (sp =? 32) then
        match number r with
        | Some (sz, name) =>
            if INT64_MAX <? sz then None
            else Some ((((a - 48) * 8 + (b - 48)) * 8 + (c - 48)) * 8 + (d - 48), sz, name)
        | None => None
        end
      else None
  | _ => None
  end.
(** scp.c:1808-1812. *)
Definition bad_name (n : list Z) : bool :=
  is_nil n || existsb (fun c => c =? 47) n || beqb n (bs ".") || beqb n (bs "..").
(** scp.c:1813-1829; no patterns: anything goes. *)
Definition name_ok (pats : list (list Z)) (n : list Z) : bool :=
  is_nil pats || existsb (fun p => beqb p n || c_fnmatch C p n) pats.
(** scp.c:1830-1845. *)
Definition path_of (targ : list Z) (isdir : bool) (n : list Z) : list Z :=
  if isdir then targ ++ (if beqb targ (bs "/") then [] else bs "/") ++ n else targ.
(** scp.c:1794-1795. *)
Definition eff_mode (m : Z) : Z := if c_p C then m else Z.land m (Z.lnot (c_umask C)).
Definition S_IWUSR : Z := 128.
Definition S_IRWXU : Z := 448.

Inductive cres := CDone (wrerr : bool) (s : st) | CQuit (s : st) | CFuel.
(** scp.c:1894-1936: the blocks of a file.  After a failed write the rest is read and
    dropped.  A connection lost in a block loses that block. *)
Fixpoint copy (fuel : nat) (np : list Z) (cnt left_ : Z) (wrerr : bool) (s : st) : cres :=
  match fuel with
  | O => CFuel
  | S f =>
      if left_ <=? 0 then CDone wrerr s
      else let amt := Z.min cnt left_ in
           if zlen (inp s) <? amt then CQuit (run_err (with_inp [] s))
           else let blk := ztake amt (inp s) in
                let s1 := with_inp (zdrop amt (inp s)) s in
                if wrerr then copy f np cnt (left_ - amt) true s1
                else let '(ok, s2) := call (EWrite np blk) s1 in
                     copy f np cnt (left_ - amt) (negb ok) (note_if (negb ok) s2)
  end.

(** scp.c:1876-1976: a C record, after its name was accepted; [ex] is the answer to
    stat(np).  The result has the times still pending. *)
Inductive fres := FNext (tm : option times) (s : st) | FQuit (s : st) | FFuel.
Definition set_mode (np : list Z) (ex : option kind) (omode : Z) (s : st) : st :=
  let mode := Z.lor omode S_IWUSR in
  if c_p C then
    if is_some ex || negb (omode =? mode) then
      let '(ok, s') := call (EFchmod np omode) s in note_if (negb ok) s'
    else s
  else if negb (is_some ex) && negb (omode =? mode) then
    let '(ok, s') := call (EFchmod np (Z.land omode (Z.lnot (c_umask C)))) s in note_if (negb ok) s'
  else s.
Definition finish (np : list Z) (ex : option kind) (omode size : Z) (tm : option times) (wrerr : bool) (s : st) : fres :=
  let s1 := if negb wrerr && match ex with None => true | Some KReg => true | _ => false end
            then let '(ok, s') := call (ETrunc np size) s in note_if (negb ok) s'
            else s in
  let s2 := set_mode np ex omode s1 in
  let '(okc, s3) := call (EClose np) s2 in
  let s4 := note_if (negb okc) s3 in
  let '(s5, quit) := response s4 in
  if quit then FQuit s5
  else match tm with
       | Some t =>
           if wrerr then FNext tm (flush s5)
           else let '(okt, s6) := call (EUtimes np t) s5 in
                FNext None (flush (note_if (negb okt) s6))
       | None => FNext None (flush s5)
       end.
Definition recv_file (np : list Z) (ex : option kind) (omode size : Z) (tm : option times) (s : st) : fres :=
  let '(ok, s1) := call (EOpen np (Z.lor omode S_IWUSR)) s in
  if negb ok then FNext tm (run_err s1)
  else let s2 := emit EOk s1 in
       let s3 := emit (EBuf np) s2 in
       match os_blk Os (EBuf np :: tr s2) with
       | None => FNext tm (emit (EClose np) (run_err s3))
       | Some cnt =>
           match copy (S (length (inp s3))) np (Z.pos cnt) size false s3 with
           | CDone w s4 => finish np ex omode size tm w s4
           | CQuit s4 => FQuit s4
           | CFuel => FFuel
           end
       end.

(** scp.c:1686-1701, 2183-2196: entering sink for a target: verifydir, the first reply, stat.
    None: exit. *)
Definition enter (targ : list Z) (s : st) : st * option bool :=
  let '(k0, s0) := if c_d C then let '(k, s') := stat targ s in (k, s') else (Some KDir, s) in
  if negb (is_dir k0) then (run_err s0, None)
  else let '(k, s1) := stat targ (emit EOk s0) in (s1, Some (is_dir k)).

Inductive res := Done (s : st) | Exit (s : st) | Fuel.
(** scp.c:1709-1976, the records; [tm] is setimes with tv. *)
Fixpoint loop (fuel : nat) (targ : list Z) (isdir : bool) (pats : list (list Z)) (tm : option times) (s : st) : res :=
  match fuel with
  | O => Fuel
  | S f =>
      match inp s with
      | [] => Done s
      | c :: r =>
          if c =? 10 then Exit (run_err (with_inp r s))
          else match read_line 2046 r with
               | None => Exit (run_err (with_inp [] s))
               | Some (line, r') =>
                   let s1 := with_inp r' s in
                   if c =? 1 then loop f targ isdir pats tm (incr s1)
                   else if c =? 2 then Exit s1
                   else if c =? 69 then Done (emit EOk s1)
                   else let arg := cstr (if last line 0 =? 10 then removelast line else line) in
                   if c =? 84 then
                     match parse_times arg with
                     | None => Exit (run_err s1)
                     | Some tm' => loop f targ isdir pats tm' (emit EOk s1)
                     end
                   else if (c =? 67) || (c =? 68) then
                     match parse_ctl arg with
                     | None => Exit (run_err s1)
                     | Some (m, size, name) =>
                         if bad_name name || negb (name_ok pats name) then Exit (run_err s1)
                         else
                         let np := path_of targ isdir name in
                         let mode := eff_mode m in
                         let '(ex, s2) := stat np s1 in
                         if c =? 68 then
                           if negb (c_r C) then Exit (run_err s2)
                           else
                           (* the mod_flag of 1849; None: bad *)
                           let '(go, s3) :=
                             if is_some ex then
                               if is_dir ex then (Some (c_p C), if c_p C then snd (call (EChmod np mode) s2) else s2)
                               else (None, s2)
                             else let '(ok, s') := call (EMkdir np (Z.lor mode S_IRWXU)) s2 in
                                  (if ok then Some true else None, s') in
                           match go with
                           | None => loop f targ isdir pats tm (run_err s3)
                           | Some modf =>
                               match enter np s3 with
                               | (s4, None) => Exit s4
                               | (s4, Some d) =>
                                   match loop f np d pats None s4 with
                                   | Done s5 =>
                                       let s6 := match tm with Some t => snd (call (EDtimes np t) s5) | None => s5 end in
                                       let s7 := if modf then snd (call (EChmod np mode) s6) else s6 in
                                       loop f targ isdir pats None s7
                                   | x => x
                                   end
                               end
                           end
                         else
                           match recv_file np ex mode size tm s2 with
                           | FNext tm' s3 => loop f targ isdir pats tm' s3
                           | FQuit s3 => Exit s3
                           | FFuel => Fuel
                           end
                     end
                   else Exit (run_err s1)
               end
      end
  end.

(** sink, scp.c:1661-1988, called with one target.  [XFatal]: fatal_f. *)
Definition sink (targ : list Z) (s : st) : res :=
  match enter targ s with
  | (s1, None) => Exit s1
  | (s1, Some d) =>
      match (match c_src C with
             | Some src => if negb (c_r C) && negb (c_T C) then expand src else XOk []
             | None => XOk []
             end) with
      | XOk pats => loop (S (length (inp s1))) targ d pats None s1
      | XFatal => Exit s1
      | XFuel => Fuel
      end
  end.
Definition start (i : list Z) : st := mkSt i [] 0 false.
End Sink.
