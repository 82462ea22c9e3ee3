(** srclimit.c: limits and penalties per source address.  Times are monotime()
    values; time_t and int sums are taken as exact integers (no wrap at 2^63).
    The red-black trees are sorted lists searched with the tree's own comparison
    function.  A node is shared by the two trees of a family; each tree holds a
    copy here and the code keeps them equal. *)
From Coq Require Import String.
From Verif Require Import Base AddrModel.
Local Open Scope Z_scope.

(** struct per_source_penalty, servconf.h 70-83, and the statics of srclimit.c
    39-41: limits, mask lengths and the list of exempt addresses.  The overflow
    modes are DENY_ALL (1) and PERMISSIVE (2), servconf.h 68-69. *)
Record config := mkCfg {
  c_max_children : Z; c_max_persource : Z; c_len4 : Z; c_len6 : Z;
  c_enabled : bool; c_max4 : Z; c_max6 : Z; c_over4 : Z; c_over6 : Z;
  c_crash : Z; c_grace : Z; c_authfail : Z; c_noauth : Z; c_refuse : Z; c_max : Z; c_min : Z;
  c_exempt : option (list Z) }.
Definition DENY_ALL : Z := 1.
Definition INT_MAX : Z := 2147483647.

(** struct penalty, srclimit.c 54-61; the reason is the penalty type it is the
    text of. *)
Record penalty := mkP { p_addr : xaddr; p_expiry : Z; p_active : bool; p_reason : Z }.
(** The trees and the count of one family, srclimit.c 64-68. *)
Record table := mkT { by_addr : list penalty; by_expiry : list penalty; npen : Z }.
(** struct child_info, srclimit.c 44-47, and all the state. *)
Record state := mkS { t4 : table; t6 : table; kids : list (Z * xaddr) }.

(** srclimit_mask_addr, 70-82 *)
Definition srclimit_mask_addr (a : xaddr) (bits : Z) : option xaddr :=
  match addr_netmask (x_af a) bits with None => None | Some m => addr_and a m end.
Definition bits_for (c : config) (f : family) : Z := match f with INET => c_len4 c | INET6 => c_len6 c end.
Definition tab (s : state) (f : family) : table := match f with INET => t4 s | INET6 => t6 s end.
Definition with_tab (s : state) (f : family) (t : table) : state :=
  match f with INET => mkS t (t6 s) (kids s) | INET6 => mkS (t4 s) t (kids s) end.
Definition max_for (c : config) (f : family) : Z := match f with INET => c_max4 c | INET6 => c_max6 c end.
Definition over_for (c : config) (f : family) : Z := match f with INET => c_over4 c | INET6 => c_over6 c end.

(** srclimit_init, 97-125; None is fatal. *)
Definition empty_table : table := mkT [] [] 0.
Definition no_addr : xaddr := mkX INET [0; 0; 0; 0] 0.
Definition srclimit_init (c : config) : option state :=
  if (c_max4 c <? 0) || (c_max6 c <? 0) then None
  else if c_max_persource c =? INT_MAX then Some (mkS empty_table empty_table [])
  else if c_max_children c <=? 0 then None
  else Some (mkS empty_table empty_table (repeat (-1, no_addr) (Z.to_nat (c_max_children c)))).

(** penalty_addr_cmp, 199-204; penalty_expiry_cmp, 206-213 *)
Definition penalty_addr_cmp (a b : penalty) : Z := addr_cmp (p_addr a) (p_addr b).
Definition penalty_expiry_cmp (a b : penalty) : Z :=
  if negb (p_expiry a =? p_expiry b) then (if p_expiry a <? p_expiry b then -1 else 1)
  else addr_cmp (p_addr a) (p_addr b).

(** RB_FIND, RB_INSERT (the node already there, if any) and RB_REMOVE of
    openbsd-compat/sys-tree.h.  RB_REMOVE of a node that is not in the tree,
    which would be undefined, is None. *)
Fixpoint rb_find (cmp : penalty -> penalty -> Z) (x : penalty) (t : list penalty) : option penalty :=
  match t with
  | [] => None
  | y :: r => if cmp x y =? 0 then Some y else rb_find cmp x r
  end.
Fixpoint rb_insert (cmp : penalty -> penalty -> Z) (x : penalty) (t : list penalty) : option penalty * list penalty :=
  match t with
  | [] => (None, [x])
  | y :: r => if cmp x y <? 0 then (None, x :: y :: r)
              else if cmp x y =? 0 then (Some y, y :: r)
              else let (e, r') := rb_insert cmp x r in (e, y :: r')
  end.
Fixpoint rb_remove (cmp : penalty -> penalty -> Z) (x : penalty) (t : list penalty) : option (list penalty) :=
  match t with
  | [] => None
  | y :: r => if cmp x y =? 0 then Some r else match rb_remove cmp x r with Some r' => Some (y :: r') | None => None end
  end.

(** expire_penalties_from_tree, 215-237; None is one of the fatal errors *)
Fixpoint expire_loop (now : Z) (es : list penalty) (as_ : list penalty) (n : Z) : option table :=
  match es with
  | [] => Some (mkT as_ [] n)
  | p :: r =>
    if p_expiry p >=? now then Some (mkT as_ es n)
    else match rb_remove penalty_addr_cmp p as_ with
         | None => None
         | Some as' => if n =? 0 then None else expire_loop now r as' (n - 1)
         end
  end.
Definition expire_penalties_from_tree (now : Z) (t : table) : option table := expire_loop now (by_expiry t) (by_addr t) (npen t).
(** expire_penalties, 239-246 *)
Definition expire_penalties (now : Z) (s : state) : option state :=
  match expire_penalties_from_tree now (t4 s) with
  | None => None
  | Some a => match expire_penalties_from_tree now (t6 s) with
              | None => None
              | Some b => Some (mkS a b (kids s))
              end
  end.

(** srclimit_early_expire_penalties_from_tree, 310-332 *)
Fixpoint early_loop (max : Z) (es : list penalty) (as_ : list penalty) (n : Z) : option table :=
  if n >? max then
    match es with
    | [] => None
    | p :: r => match rb_remove penalty_addr_cmp p as_ with
                | None => None
                | Some as' => early_loop max r as' (n - 1)
                end
    end
  else Some (mkT as_ es n).
Definition early_from_tree (max : Z) (t : table) : option table := early_loop max (by_expiry t) (by_addr t) (npen t).
(** srclimit_early_expire_penalties, 334-343 *)
Definition srclimit_early_expire_penalties (c : config) (s : state) : option state :=
  match early_from_tree (c_max4 c) (t4 s) with
  | None => None
  | Some a => match early_from_tree (c_max6 c) (t6 s) with
              | None => None
              | Some b => Some (mkS a b (kids s))
              end
  end.

Section Env.
(** addr_ntop and addr_pton (getnameinfo and getaddrinfo) *)
Variable ntop : xaddr -> option (list Z).
Variable pton : list Z -> option xaddr.

(** 272-278 and 361-369: true if the penalty code ignores this address *)
Definition is_exempt (c : config) (a : xaddr) : bool :=
  match c_exempt c with
  | None => false
  | Some l => match ntop a with
              | None => true
              | Some t => addr_match_list pton (Some t) l =? 1
              end
  end.

(** srclimit_penalty_check_allow, 258-308; [peer] is the address
    srclimit_peer_addr (84-95) finds for the socket, if it finds one.  The second
    test of the expiry (300-303) is after the same test in expire_penalties. *)
Definition srclimit_penalty_check_allow (c : config) (s : state) (peer : option xaddr) (now : Z) : option (bool * state) :=
  if negb (c_enabled c) then Some (true, s) else
  match peer with
  | None => Some (true, s)
  | Some a =>
    if is_exempt c a then Some (true, s) else
    match expire_penalties now s with
    | None => None
    | Some s1 =>
      let t := tab s1 (x_af a) in
      if (npen t >=? max_for c (x_af a)) && (over_for c (x_af a) =? DENY_ALL) then Some (false, s1) else
      match srclimit_mask_addr a (bits_for c (x_af a)) with
      | None => Some (true, s1)
      | Some m =>
        match rb_find penalty_addr_cmp (mkP m 0 false 0) (by_addr t) with
        | None => Some (true, s1)
        | Some p =>
          if p_expiry p <? now then
            match expire_penalties now s1 with None => None | Some s2 => Some (true, s2) end
          else if negb (p_active p) then Some (true, s1)
          else Some (false, s1)
        end
      end
    end
  end.

(** The switch of 371-393: the seconds for a type; None is fatal *)
Definition NONE : Z := 0.
Definition penalty_secs (c : config) (type : Z) : option Z :=
  if type =? 1 then Some (c_crash c)
  else if type =? 2 then Some (c_authfail c)
  else if type =? 4 then Some (c_noauth c)
  else if type =? 5 then Some (c_refuse c)
  else if type =? 3 then Some (c_grace c)
  else None.

(** srclimit_penalise, 345-460 *)
Definition srclimit_penalise (c : config) (s : state) (a : xaddr) (type : Z) (now : Z) : option state :=
  if negb (c_enabled c) then Some s else
  if is_exempt c a then Some s else
  if type =? NONE then Some s else
  match penalty_secs c type with
  | None => None
  | Some secs =>
    match srclimit_mask_addr a (bits_for c (x_af a)) with
    | None => Some s
    | Some m =>
      match expire_penalties now s with
      | None => None
      | Some s1 =>
        let f := x_af a in
        let t := tab s1 f in
        if (npen t >=? max_for c f) && (over_for c f =? DENY_ALL) then Some s1 else
        let p := mkP m (now + secs) (secs >? c_min c) type in
        match rb_insert penalty_addr_cmp p (by_addr t) with
        | (None, as') =>
          match rb_insert penalty_expiry_cmp p (by_expiry t) with
          | (Some _, _) => None
          | (None, es') =>
            let s2 := with_tab s1 f (mkT as' es' (npen t + 1)) in
            if npen t + 1 >? max_for c f then srclimit_early_expire_penalties c s2 else Some s2
          end
        | (Some old, _) =>
          match rb_remove penalty_expiry_cmp old (by_expiry t) with
          | None => None
          | Some es1 =>
            let e1 := p_expiry old + secs in
            let e2 := if e1 - now >? c_max c then now + c_max c else e1 in
            let act := if (e2 - now >? c_min c) && negb (p_active old) then true else p_active old in
            let new := mkP (p_addr old) e2 act type in
            match rb_insert penalty_expiry_cmp new es1 with
            | (Some _, _) => None
            | (None, es2) =>
              (* the node itself changes, wherever it hangs *)
              let as2 := map (fun q => if penalty_addr_cmp old q =? 0 then new else q) (by_addr t) in
              Some (with_tab s1 f (mkT as2 es2 (npen t)))
            end
          end
        end
      end
    end
  end.

(** srclimit_check_allow, 128-177: the loop of 147-155 ... *)
Fixpoint scan (ks : list (Z * xaddr)) (i : Z) (xb : xaddr) (first count : Z) : Z * Z :=
  match ks with
  | [] => (first, count)
  | (id, ad) :: r =>
    if id =? -1 then scan r (i + 1) xb (if i <? first then i else first) count
    else if addr_cmp ad xb =? 0 then scan r (i + 1) xb first (count + 1)
    else scan r (i + 1) xb first count
  end.
Fixpoint set_at (n : nat) (v : Z * xaddr) (l : list (Z * xaddr)) : list (Z * xaddr) :=
  match l, n with
  | [], _ => []
  | _ :: r, O => v :: r
  | x :: r, S n' => x :: set_at n' v r
  end.
(** ... and the decision. *)
Definition srclimit_check_allow (c : config) (s : state) (peer : option xaddr) (id : Z) : option (bool * state) :=
  if c_max_persource c =? INT_MAX then Some (true, s) else
  match peer with
  | None => Some (true, s)
  | Some xa =>
    match srclimit_mask_addr xa (bits_for c (x_af xa)) with
    | None => Some (true, s)
    | Some xb =>
      let (first, count) := scan (kids s) 0 xb (c_max_children c) 0 in
      match ntop xa with
      | None => Some (true, s)
      | Some _ =>
        if first =? c_max_children c then Some (false, s)
        else if (first <? 0) || (first >=? c_max_children c) then None
        else if count >=? c_max_persource c then Some (false, s)
        else Some (true, mkS (t4 s) (t6 s) (set_at (Z.to_nat first) (id, xb) (kids s)))
      end
    end
  end.

(** srclimit_done, 179-196 *)
Fixpoint clear_id (id : Z) (ks : list (Z * xaddr)) : list (Z * xaddr) :=
  match ks with
  | [] => []
  | (i, a) :: r => if i =? id then (-1, a) :: r else (i, a) :: clear_id id r
  end.
Definition srclimit_done (c : config) (s : state) (id : Z) : state :=
  if c_max_persource c =? INT_MAX then s else mkS (t4 s) (t6 s) (clear_id id (kids s)).

(** Histories of calls, and the answers of the two checks. *)
Inductive call :=
| Penalise (a : xaddr) (type : Z) (now : Z)
| CheckPenalty (peer : option xaddr) (now : Z)
| CheckAllow (peer : option xaddr) (id : Z)
| Done (id : Z).
Definition step (c : config) (s : state) (k : call) : option (option bool * state) :=
  match k with
  | Penalise a ty now => match srclimit_penalise c s a ty now with Some s' => Some (None, s') | None => None end
  | CheckPenalty p now => match srclimit_penalty_check_allow c s p now with Some (b, s') => Some (Some b, s') | None => None end
  | CheckAllow p id => match srclimit_check_allow c s p id with Some (b, s') => Some (Some b, s') | None => None end
  | Done id => Some (None, srclimit_done c s id)
  end.
Fixpoint play (c : config) (s : state) (h : list call) : option (list (option bool) * state) :=
  match h with
  | [] => Some ([], s)
  | k :: r =>
    match step c s k with
    | None => None
    | Some (o, s1) => match play c s1 r with None => None | Some (os, s2) => Some (o :: os, s2) end
    end
  end.
Definition session (c : config) (h : list call) : option (list (option bool) * state) :=
  match srclimit_init c with None => None | Some s => play c s h end.
End Env.
