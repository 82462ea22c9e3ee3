(** addr.c, addrmatch.c, match_host_and_ip and match_user of match.c, and the
    range expansion of ssh-keyscan.c.

    Representation (addr.h 24-37): the address union is kept as its four 32-bit
    words, each in host byte order ([ntohl] of addr32[i]); an IPv4 address is the
    first word.  The bitwise operations of the C code act on network-order words;
    byte swapping permutes bits, so they are the same operations here, and
    htonl/ntohl disappear.  Only AF_INET and AF_INET6 exist (getaddrinfo's
    result is filtered by addr_sa_to_xaddr, addr.c 118-136).  NULL arguments are
    modelled only where a caller uses them (a NULL address to the list matchers). *)
From Coq Require Import String.
From Verif Require Import Base Text MatchModel MiscNumModel.

Inductive family := INET | INET6.
Definition fam_eqb (a b : family) : bool := match a, b with INET, INET => true | INET6, INET6 => true | _, _ => false end.
Record xaddr := mkX { x_af : family; x_words : list Z; x_scope : Z }.
Definition ONES : Z := 4294967295. (* 0xffffffff *)

(** addr_unicast_masklen and masklen_valid, addr.c 36-60. *)
Definition addr_unicast_masklen (af : family) : Z := match af with INET => 32 | INET6 => 128 end.
Definition masklen_valid (af : family) (l : Z) : bool :=
  match af with INET => l <=? 32 | INET6 => l <=? 128 end.

(** addr_invert, addr.c 141-160. *)
Definition inv32 (w : Z) : Z := u32 (Z.lnot w).
Definition addr_invert (n : xaddr) : xaddr :=
  match x_af n with
  | INET => mkX INET (match x_words n with w :: r => inv32 w :: r | [] => [] end) (x_scope n)
  | INET6 => mkX INET6 (map inv32 (x_words n)) (x_scope n)
  end.

(** addr_netmask, addr.c 167-194; the word loop of 185-189 is [mask_words]. *)
Definition mask32 (l : Z) : Z := Z.land (u32 (Z.shiftl ONES (32 - l))) ONES.
Fixpoint mask_words (n : nat) (l : Z) : list Z :=
  match n with
  | O => []
  | S n' => if 32 <=? l then ONES :: mask_words n' (l - 32)
            else (if l =? 0 then 0 else mask32 l) :: repeat 0 n'
  end.
Definition addr_netmask (af : family) (l : Z) : option xaddr :=
  if negb (masklen_valid af l) then None
  else Some (match af with
             | INET => mkX INET (if l =? 0 then [0; 0; 0; 0] else [mask32 l; 0; 0; 0]) 0
             | INET6 => mkX INET6 (mask_words 4 l) 0
             end).
(** addr_hostmask, addr.c 196-202. *)
Definition addr_hostmask (af : family) (l : Z) : option xaddr := option_map addr_invert (addr_netmask af l).

Fixpoint map2 (f : Z -> Z -> Z) (a b : list Z) : list Z :=
  match a, b with
  | x :: a', y :: b' => f x y :: map2 f a' b'
  | _, _ => []
  end.
Definition on_words (f : Z -> Z -> Z) (af : family) (a b : list Z) : list Z :=
  match af with
  | INET => match a, b with x :: r, y :: _ => f x y :: r | _, _ => a end
  | INET6 => map2 f a b
  end.
(** addr_and, addr.c 208-229, and addr_or, 231-251. *)
Definition addr_and (a b : xaddr) : option xaddr :=
  if negb (fam_eqb (x_af a) (x_af b)) then None
  else Some (mkX (x_af a) (on_words Z.land (x_af a) (x_words a) (x_words b)) (x_scope a)).
Definition addr_or (a b : xaddr) : option xaddr :=
  if negb (fam_eqb (x_af a) (x_af b)) then None
  else Some (mkX (x_af a) (on_words Z.lor (x_af a) (x_words a) (x_words b)) (x_scope a)).

(** addr8[], the bytes of the address in network order. *)
Definition addr8 (a : xaddr) : list Z := flat_map (be_enc 4) (x_words a).
Fixpoint byte_diff (a b : list Z) : Z :=
  match a, b with
  | x :: a', y :: b' => if x - y =? 0 then byte_diff a' b' else x - y
  | _, _ => 0
  end.
(** addr_cmp, addr.c 253-284. *)
Definition addr_cmp (a b : xaddr) : Z :=
  if negb (fam_eqb (x_af a) (x_af b)) then (match x_af a with INET6 => 1 | INET => -1 end)
  else match x_af a with
       | INET => let wa := hd 0 (x_words a) in let wb := hd 0 (x_words b) in
                 if wa =? wb then 0 else if wb <? wa then 1 else -1
       | INET6 => let d := byte_diff (addr8 a) (addr8 b) in
                  if d =? 0 then
                    if x_scope a =? x_scope b then 0 else if x_scope b <? x_scope a then 1 else -1
                  else d
       end.
(** addr_is_all0s, addr.c 286-302 (true is the 0 return). *)
Definition addr_is_all0s (a : xaddr) : bool :=
  match x_af a with
  | INET => hd 0 (x_words a) =? 0
  | INET6 => forallb (fun w => w =? 0) (x_words a)
  end.

(** addr_increment, addr.c 305-325; [incr_words] runs over the words from the
    least significant one. *)
Fixpoint incr_words (rev_ws : list Z) : list Z :=
  match rev_ws with
  | [] => []
  | w :: r => let n := u32 (w + 1) in if n =? 0 then n :: incr_words r else n :: r
  end.
Definition addr_increment (a : xaddr) : xaddr :=
  match x_af a with
  | INET => mkX INET (match x_words a with w :: r => u32 (w + 1) :: r | [] => [] end) (x_scope a)
  | INET6 => mkX INET6 (rev (incr_words (rev (x_words a)))) (x_scope a)
  end.

(** addr_host_is_all0s, addr.c 333-344; addr_host_to_all1s, 360-370. *)
Definition addr_host_is_all0s (a : xaddr) (masklen : Z) : bool :=
  match addr_hostmask (x_af a) masklen with
  | None => false
  | Some m => match addr_and a m with None => false | Some r => addr_is_all0s r end
  end.
Definition addr_host_to_all1s (a : xaddr) (masklen : Z) : option xaddr :=
  match addr_hostmask (x_af a) masklen with
  | None => None
  | Some m => addr_or a m
  end.

(** addr_netmatch, addr.c 497-510. *)
Definition addr_netmatch (host net : xaddr) (masklen : Z) : Z :=
  if negb (fam_eqb (x_af host) (x_af net)) then -1
  else match addr_netmask (x_af host) masklen with
       | None => -1
       | Some m => match addr_and host m with None => -1 | Some r => addr_cmp r net end
       end.

Section Resolver.
(** addr_pton, addr.c 376-403: getaddrinfo with AI_NUMERICHOST is the parameter. *)
Variable pton : list Z -> option xaddr.

(** addr_pton_cidr, addr.c 459-495.  The masklen is u_int of a value 0..INT_MAX. *)
Inductive cidr_res := CidrOk (a : xaddr) (l : Z) | CidrParse | CidrInconsistent.
Definition cidr_check (a : xaddr) (masklen : Z) : cidr_res :=
  if negb (masklen_valid (x_af a) masklen) then CidrInconsistent
  else if negb (addr_host_is_all0s a masklen) then CidrInconsistent
  else CidrOk a masklen.
Definition addr_pton_cidr (p : list Z) : cidr_res :=
  if 64 <=? zlen p then CidrParse
  else match strchr_cut 47 p with
       | Some (addrbuf, mp) =>
           match strtonum mp 0 INT_MAX with
           | inr _ => CidrParse
           | inl masklen => match pton addrbuf with None => CidrParse | Some tmp => cidr_check tmp masklen end
           end
       | None => match pton p with
                 | None => CidrParse
                 | Some tmp => cidr_check tmp (addr_unicast_masklen (x_af tmp))
                 end
       end.

(** The loop of addr_match_list, addrmatch.c 62-93.  [addr] is the address text
    with its parsed form, None for a NULL addr. *)
Definition entry_hits (addr : option (list Z * xaddr)) (cp : list Z) : option bool :=
  match addr_pton_cidr cp with
  | CidrInconsistent => None
  | CidrOk net l => Some (match addr with Some (_, x) => addr_netmatch x net l =? 0 | None => false end)
  | CidrParse => Some (match addr with Some (t, _) => match_pattern t cp | None => false end)
  end.
Fixpoint aml_loop (es : list (list Z)) (addr : option (list Z * xaddr)) (ret : Z) : Z :=
  match es with
  | [] => ret
  | e :: r =>
      let neg := match e with c :: _ => c =? BANG | [] => false end in
      let cp := if neg then tl e else e in
      if is_nil cp then -2
      else match entry_hits addr cp with
           | None => -2
           | Some true => if neg then -1 else aml_loop r addr 1
           | Some false => aml_loop r addr ret
           end
  end.
(** addr_match_list, addrmatch.c 48-97. *)
Definition addr_match_list (addr : option (list Z)) (l : list Z) : Z :=
  match addr with
  | None => aml_loop (split COMMA l) None 0
  | Some t => match pton t with
              | None => 0
              | Some x => aml_loop (split COMMA l) (Some (t, x)) 0
              end
  end.

(** addr_match_cidr_list, addrmatch.c 108-169; INET6_ADDRSTRLEN is 46.  An entry
    with invalid characters sets ret = -1 and goes on (142-146). *)
Definition VALID_CIDR_CHARS : list Z := bs "0123456789abcdefABCDEF.:/".
Definition valid_chars (cp : list Z) : bool := forallb (fun c => existsb (Z.eqb c) VALID_CIDR_CHARS) cp.
Fixpoint acl_loop (es : list (list Z)) (addr : option xaddr) (ret : Z) : Z :=
  match es with
  | [] => ret
  | cp :: r =>
      if is_nil cp then -1
      else if 46 + 3 <? zlen cp then -1
      else let ret := if valid_chars cp then ret else -1 in
           match addr_pton_cidr cp with
           | CidrParse => -1
           | CidrInconsistent => -1
           | CidrOk net l => match addr with
                             | Some x => acl_loop r addr (if addr_netmatch x net l =? 0 then 1 else ret)
                             | None => acl_loop r addr ret
                             end
           end
  end.
Definition addr_match_cidr_list (addr : option (list Z)) (l : list Z) : Z :=
  match addr with
  | None => acl_loop (split COMMA l) None 0
  | Some t => match pton t with
              | None => 0
              | Some x => acl_loop (split COMMA l) (Some x) 0
              end
  end.

(** match_host_and_ip, match.c 210-228. *)
Definition match_host_and_ip (host ipaddr : option (list Z)) (patterns : list Z) : option Z :=
  let mip := addr_match_list ipaddr patterns in
  if mip =? -2 then Some (-1)
  else match host, ipaddr with
       | Some h, Some _ =>
           if mip =? -1 then Some 0
           else match match_hostname h patterns with
                | None => None
                | Some mhost => if mhost =? -1 then Some 0
                                else if (mhost =? 0) && (mip =? 0) then Some 0 else Some 1
                end
       | _, _ => Some 0
       end.

(** strrchr: the text before and after the last occurrence. *)
Fixpoint strrchr_cut (c : Z) (s : list Z) : option (list Z * list Z) :=
  match s with
  | [] => None
  | x :: r => match strrchr_cut c r with
              | Some (a, b) => Some (x :: a, b)
              | None => if x =? c then Some ([], r) else None
              end
  end.
(** match_user, match.c 235-265, for a caller that gives a user; None only if
    match_hostname runs out of fuel (excluded in MatchProps). *)
Definition match_user (user : list Z) (host ipaddr : option (list Z)) (pattern : list Z) : option Z :=
  match strrchr_cut 64 pattern with
  | None => Some (if match_pattern user pattern then 1 else 0)
  | Some (pat, p) => if match_pattern user pat then match_host_and_ip host ipaddr p else Some 0
  end.

(** The expansion loop of do_host, ssh-keyscan.c 636-653: the addresses handed to
    do_one_host, in order; None when the fuel runs out.  addr_ntop is taken to
    succeed. *)
Fixpoint expand_loop (fuel : nat) (addr end_addr : xaddr) : option (list xaddr) :=
  match fuel with
  | O => None
  | S fuel =>
      if addr_cmp addr end_addr =? 0 then Some [addr]
      else option_map (cons addr) (expand_loop fuel (addr_increment addr) end_addr)
  end.
Definition do_host (fuel : nat) (host : list Z) : option (list xaddr) :=
  match addr_pton_cidr host with
  | CidrOk addr l => match addr_host_to_all1s addr l with
                     | None => Some []
                     | Some e => expand_loop fuel addr e
                     end
  | _ => Some []
  end.
End Resolver.
