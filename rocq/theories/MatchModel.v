(** match.c: wildcard patterns, pattern lists, negotiation of name lists. *)
From Coq Require Import String.
From Verif Require Import Base Text.

Definition STAR : Z := 42.  (* '*' *)
Definition QUEST : Z := 63. (* '?' *)
Definition BANG : Z := 33.  (* '!' *)

(** match_pattern, match.c 56-113; here the pattern is the first argument.  A
    C string is the list of its bytes, its NUL is the end of the list.  The loop
    that skips consecutive asterisks (66-67) is written as a re-entry of the
    function at the next asterisk, which does the same skip. *)
Fixpoint mp (p s : list Z) {struct p} : bool :=
  match p with
  | [] => is_nil s
  | c :: p' =>
      if c =? STAR then
        match p' with
        | [] => true
        | d :: p'' =>
            if d =? STAR then mp p' s
            else if negb (d =? QUEST) then
              (* 80-83 *)
              (fix scan (s : list Z) : bool :=
                 match s with
                 | [] => false
                 | x :: s' => if (x =? d) && mp p'' s' then true else scan s'
                 end) s
            else
              (* 91-93 *)
              (fix scan (s : list Z) : bool :=
                 match s with
                 | [] => false
                 | _ :: s' => if mp p' s then true else scan s'
                 end) s
        end
      else
        match s with
        | [] => false
        | x :: s' => if negb (c =? QUEST) && negb (c =? x) then false else mp p' s'
        end
  end.
Definition match_pattern (s p : list Z) : bool := mp p s.

(** match_pattern_list, match.c 121-172.  sizeof(sub) - 1 = 1023.  [u_int len =
    strlen(pattern)] is taken to be exact (patterns below 4 GiB). *)
Definition SUBMAX : Z := 1023.
(** The inner loop 142-146: copies up to a comma, the end, or the room in sub. *)
Fixpoint take_sub (room : nat) (dolower : bool) (p : list Z) : list Z * list Z :=
  match room with
  | O => ([], p)
  | S k =>
      match p with
      | [] => ([], [])
      | c :: r => if c =? COMMA then ([], p)
                  else let '(sub, rest) := take_sub k dolower r in
                       ((if dolower then tolower c else c) :: sub, rest)
      end
  end.
(** None: the loop did not end (excluded by [C11_total]). *)
Fixpoint mpl (fuel : nat) (s p : list Z) (dolower : bool) (got : bool) : option Z :=
  match fuel with
  | O => None
  | S k =>
      match p with
      | [] => Some (if got then 1 else 0)
      | c :: r =>
          let negated := c =? BANG in
          let p1 := if negated then r else p in
          let '(sub, rest) := take_sub (Z.to_nat SUBMAX) dolower p1 in
          if SUBMAX <=? zlen sub then Some 0 else
          let rest' := match rest with d :: r' => if d =? COMMA then r' else rest | [] => [] end in
          if match_pattern s sub then
            if negated then Some (-1) else mpl k s rest' dolower true
          else mpl k s rest' dolower got
      end
  end.
Definition match_pattern_list (s p : list Z) (dolower : bool) : option Z :=
  mpl (S (length p)) s p dolower false.

(** match_hostname, match.c 193-203. *)
Definition match_hostname (host p : list Z) : option Z :=
  match_pattern_list (map tolower host) p true.

(** match_list, match.c 273-311.  strsep yields the fields one by one; both
    loops stop at the first empty field or the end, the first also after
    MAX_PROP names.  The result is the name and *next, the position in [client]
    just after it and its comma. *)
Definition MAX_PROP : nat := 40.
Fixpoint until_empty (l : list (list Z)) : list (list Z) :=
  match l with
  | [] => []
  | f :: r => if is_nil f then [] else f :: until_empty r
  end.
Fixpoint ml_scan (cl : list (list Z)) (sv : list (list Z)) (pos total : Z) : option (list Z * Z) :=
  match cl with
  | [] => None
  | p :: r =>
      if is_nil p then None
      else if existsb (beqb p) sv then
             Some (p, match r with [] => total | _ => pos + zlen p + 1 end)
           else ml_scan r sv (pos + zlen p + 1) total
  end.
Definition match_list_next (client server : list Z) : option (list Z * Z) :=
  ml_scan (split COMMA client) (firstn MAX_PROP (until_empty (split COMMA server))) 0 (zlen client).
Definition match_list (client server : list Z) : option (list Z) :=
  option_map fst (match_list_next client server).

(** filter_list, match.c 320-347.  The output buffer is as long as the input, so
    strlcat never truncates (allocation failure not modelled).  The result of a
    non-terminating match would be None. *)
Fixpoint filter_scan (fs : list (list Z)) (flt : list Z) (deny : bool) (acc : list Z) : option (list Z) :=
  match fs with
  | [] => Some acc
  | cp :: r =>
      match match_pattern_list cp flt false with
      | None => None
      | Some m =>
          if (deny && negb (m =? 1)) || (negb deny && (m =? 1)) then
            filter_scan r flt deny ((if is_nil acc then [] else acc ++ [COMMA]) ++ cp)
          else filter_scan r flt deny acc
      end
  end.
Definition filter_list (proposal flt : list Z) (deny : bool) : option (list Z) :=
  filter_scan (split COMMA proposal) flt deny [].
Definition match_filter_denylist (proposal flt : list Z) := filter_list proposal flt true.
Definition match_filter_allowlist (proposal flt : list Z) := filter_list proposal flt false.
