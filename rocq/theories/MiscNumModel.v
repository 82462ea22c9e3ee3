(** Number, port, tunnel and time parsing: openbsd-compat/strtonum.c and the
    parsers of misc.c built on it.  C strings are byte lists without the
    terminating NUL. *)
From Coq Require Import String.
From Verif Require Import Base Text.

Definition LLONG_MAX : Z := 9223372036854775807.
Definition LLONG_MIN : Z := - 9223372036854775808.
Definition INT_MAX : Z := 2147483647.

(** isspace and isdigit in the C locale. *)
Definition isspace (c : Z) : bool := (c =? 32) || ((9 <=? c) && (c <=? 13)).
Definition isdigit (c : Z) : bool := (48 <=? c) && (c <=? 57).

(** libc strtoll(s, &ep, 10): white space, an optional sign, digits.  [digits]
    returns the value accumulated, whether a digit was seen, and the rest. *)
Fixpoint skip_space (s : list Z) : list Z :=
  match s with
  | c :: r => if isspace c then skip_space r else s
  | [] => []
  end.
Fixpoint digits (s : list Z) (acc : Z) (any : bool) : Z * bool * list Z :=
  match s with
  | c :: r => if isdigit c then digits r (acc * 10 + (c - 48)) true else (acc, any, s)
  | [] => (acc, any, [])
  end.
(** The result: None when no conversion was done (ep == s), else the value
    clamped to long long, whether errno became ERANGE, and the rest (ep). *)
Definition strtoll (s : list Z) : option (Z * bool * list Z) :=
  let s1 := skip_space s in
  let '(neg, s2) := match s1 with
                    | c :: r => if c =? 45 then (true, r) else if c =? 43 then (false, r) else (false, s1)
                    | [] => (false, s1)
                    end in
  let '(v, any, rest) := digits s2 0 false in
  if any then
    let v' := if neg then - v else v in
    Some (if v' <? LLONG_MIN then (LLONG_MIN, true, rest)
          else if LLONG_MAX <? v' then (LLONG_MAX, true, rest) else (v', false, rest))
  else None.

(** strtonum, openbsd-compat/strtonum.c 33-70; inr is *errstrp. *)
Inductive numerr := NInvalid | NTooSmall | NTooLarge.
Definition strtonum (s : list Z) (minval maxval : Z) : Z + numerr :=
  if maxval <? minval then inr NInvalid
  else match strtoll s with
       | None => inr NInvalid
       | Some (ll, erange, rest) =>
           if negb (is_nil rest) then inr NInvalid
           else if ((ll =? LLONG_MIN) && erange) || (ll <? minval) then inr NTooSmall
           else if ((ll =? LLONG_MAX) && erange) || (maxval <? ll) then inr NTooLarge
           else inl ll
       end.

(** a2port, misc.c 535-548.  [serv] is getservbyname(s, "tcp") with the port in
    host order (ntohs of a 16-bit field). *)
Definition a2port (serv : list Z -> option Z) (s : list Z) : Z :=
  match strtonum s 0 65535 with
  | inl port => port
  | inr _ => match serv s with Some p => u16 p | None => -1 end
  end.

(** a2tun with remote == NULL, misc.c 571-578, and with remote, 557-569 (the pair
    is (return value, value stored in *remote)).  strcasecmp is equality after tolower. *)
Definition SSH_TUNID_ANY : Z := 2147483647.
Definition SSH_TUNID_ERR : Z := SSH_TUNID_ANY - 1.
Definition SSH_TUNID_MAX : Z := SSH_TUNID_ANY - 2.
Definition strcaseeq (a b : list Z) : bool := beqb (map tolower a) (map tolower b).
Definition a2tun1 (s : list Z) : Z :=
  if strcaseeq s (bs "any") then SSH_TUNID_ANY
  else match strtonum s 0 SSH_TUNID_MAX with
       | inl tun => tun
       | inr _ => SSH_TUNID_ERR
       end.
(** strchr: the text before and after the first occurrence. *)
Fixpoint strchr_cut (c : Z) (s : list Z) : option (list Z * list Z) :=
  match s with
  | [] => None
  | x :: r => if x =? c then Some ([], r)
              else match strchr_cut c r with Some (a, b) => Some (x :: a, b) | None => None end
  end.
Definition a2tun (s : list Z) : Z * Z :=
  match strchr_cut 58 s with
  | None => (a2tun1 s, SSH_TUNID_ANY)
  | Some (sp, ep) =>
      let remote := a2tun1 ep in
      let tun := a2tun1 sp in
      (if remote =? SSH_TUNID_ERR then remote else tun, remote)
  end.

(** scandigits, misc.c 587-593: the digits, and the rest. *)
Fixpoint scandigits (s : list Z) : list Z * list Z :=
  match s with
  | c :: r => if isdigit c then let '(a, b) := scandigits r in (c :: a, b) else ([], s)
  | [] => ([], [])
  end.
(** The switch of convtime, 640-666; None is the default case. *)
Definition multiplier (c : Z) : option Z :=
  if (c =? 115) || (c =? 83) then Some 1
  else if (c =? 109) || (c =? 77) then Some 60
  else if (c =? 104) || (c =? 72) then Some (60 * 60)
  else if (c =? 100) || (c =? 68) then Some (60 * 60 * 24)
  else if (c =? 119) || (c =? 87) then Some (60 * 60 * 24 * 7)
  else None.
(** The loop of convtime, 629-676.  [ctime_add] is one term: the checks of lines
    667-674.  Fuel: the length of the text. *)
Definition ctime_add (total secs mult : Z) : option Z :=
  if INT_MAX / mult <? secs then None
  else let secs := secs * mult in
       if INT_MAX - secs <? total then None
       else let total := total + secs in
            if total <? 0 then None else Some total.
Inductive ctres := CtOk (v : Z) | CtFail | CtFuel.
Fixpoint ctime_loop (fuel : nat) (p : list Z) (total : Z) : ctres :=
  match p with
  | [] => CtOk total
  | _ :: _ =>
      match fuel with
      | O => CtFuel
      | S fuel =>
          let '(ds, np) := scandigits p in
          match strtonum ds 0 INT_MAX with
          | inr _ => CtFail
          | inl secs =>
              match np with
              | [] => match ctime_add total secs 1 with
                      | Some t => ctime_loop fuel [] t
                      | None => CtFail
                      end
              | c :: r => match multiplier c with
                          | None => CtFail
                          | Some m => match ctime_add total secs m with
                                      | Some t => ctime_loop fuel r t
                                      | None => CtFail
                                      end
                          end
              end
          end
      end
  end.
(** convtime, misc.c 616-682; -1 for an invalid text, -2 for exhausted fuel (never
    returned, see MiscNumProps).  strdup failure is not modelled. *)
Definition convtime (s : list Z) : Z :=
  match s with
  | [] => -1
  | _ => match ctime_loop (length s) s 0 with CtOk v => v | CtFail => -1 | CtFuel => -2 end
  end.

(** parse_pattern_interval, misc.c 2547-2577: type and seconds, or None. *)
Definition parse_pattern_interval (s : list Z) : option (list Z * Z) :=
  match strchr_cut 61 s with
  | None => None
  | Some ([], _) => None
  | Some (ty, cp) => let secs := convtime cp in if secs <? 0 then None else Some (ty, secs)
  end.

(** atoi_err, misc.c 2462-2471: the value, or an error text. *)
Definition atoi_err (s : list Z) : option Z :=
  match s with
  | [] => None
  | _ => match strtonum s 0 INT_MAX with inl v => Some v | inr _ => None end
  end.

(** isxdigit and hexchar, misc.c 962-979. *)
Definition hexval (c : Z) : option Z :=
  if (48 <=? c) && (c <=? 57) then Some (c - 48)
  else if (97 <=? c) && (c <=? 102) then Some (c - 97 + 10)
  else if (65 <=? c) && (c <=? 70) then Some (c - 65 + 10)
  else None.
Definition isxdigit (c : Z) : bool := match hexval c with Some _ => true | None => false end.
Definition hexchar (a b : Z) : Z :=
  match hexval a, hexval b with
  | Some x, Some y => Z.lor (Z.shiftl x 4) y
  | _, _ => -1
  end.
(** urldecode, misc.c 985-1018: the bytes written to ret before the final NUL. *)
Fixpoint urldecode_buf (src : list Z) : option (list Z) :=
  match src with
  | [] => Some []
  | c :: r =>
      if c =? 43 then option_map (cons 32) (urldecode_buf r)
      else if c =? 37 then
        match r with
        | a :: b :: r' =>
            if negb (isxdigit a) || negb (isxdigit b) || (hexchar a b =? -1) then None
            else option_map (cons (hexchar a b)) (urldecode_buf r')
        | _ => None
        end
      else option_map (cons c) (urldecode_buf r)
  end.
(** The C string a caller sees in a buffer: up to the first NUL. *)
Fixpoint cstr (l : list Z) : list Z :=
  match l with
  | [] => []
  | c :: r => if c =? 0 then [] else c :: cstr r
  end.
Definition urldecode (src : list Z) : option (list Z) := option_map cstr (urldecode_buf src).
