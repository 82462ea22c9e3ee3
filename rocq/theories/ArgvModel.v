(** misc.c: splitting a command line into arguments and assembling one.  C
    strings are byte lists without NUL; allocation failure (fatal) is not
    modelled. *)
From Coq Require Import String.
From Verif Require Import Base.

Definition blank (c : Z) : bool := (c =? 32) || (c =? 9).
Definition BSL : Z := 92.
Definition DQ : Z := 34.
Definition SQ : Z := 39.

(** The token loop of argv_split, misc.c 2088-2108, from s+i in quote state
    [quote] (0 is none): the argument, the text from the final s[i], and the final
    quote state. *)
Fixpoint token (s : list Z) (quote : Z) : list Z * list Z * Z :=
  match s with
  | [] => ([], [], quote)
  | c :: r =>
      if c =? BSL then
        match r with
        | d :: r' =>
            if (d =? SQ) || (d =? DQ) || (d =? BSL) || ((quote =? 0) && (d =? 32))
            then let '(a, e, f) := token r' quote in (d :: a, e, f)
            else let '(a, e, f) := token r quote in (c :: a, e, f)
        | [] => let '(a, e, f) := token r quote in (c :: a, e, f)
        end
      else if (quote =? 0) && blank c then ([], s, quote)
      else if (quote =? 0) && ((c =? DQ) || (c =? SQ)) then token r c
      else if negb (quote =? 0) && (c =? quote) then token r 0
      else let '(a, e, f) := token r quote in (c :: a, e, f)
  end.

(** The outer loop of argv_split, misc.c 2074-2117.  Fuel: the length of the text
    plus one; SFuel is excluded in ArgvProps. *)
Inductive split_res := SArgs (a : list (list Z)) | SBadFormat | SFuel.
Fixpoint split_loop (fuel : nat) (s : list Z) (comment : bool) (argv : list (list Z)) : split_res :=
  match fuel with
  | O => SFuel
  | S fuel =>
      match s with
      | [] => SArgs argv
      | c :: r =>
          if blank c then split_loop fuel r comment argv
          else if comment && (c =? 35) then SArgs argv
          else let '(arg, e, quote) := token s 0 in
               match e with
               | [] => if negb (quote =? 0) then SBadFormat else SArgs (argv ++ [arg])
               | _ :: r' => split_loop fuel r' comment (argv ++ [arg])
               end
      end
  end.
(** argv_split, misc.c 2064-2131. *)
Definition argv_split (s : list Z) (comment : bool) : split_res := split_loop (S (length s)) s comment [].

(** argv_assemble, misc.c 2137-2185: one argument (2148-2171), then the vector. *)
Fixpoint quote_arg (a : list Z) : list Z :=
  match a with
  | [] => []
  | c :: r => if blank c then c :: quote_arg r
              else if (c =? BSL) || (c =? SQ) || (c =? DQ) then BSL :: c :: quote_arg r
              else c :: quote_arg r
  end.
Definition asm_arg (a : list Z) : list Z :=
  if existsb blank a then DQ :: quote_arg a ++ [DQ] else quote_arg a.
Fixpoint asm_loop (i : nat) (argv : list (list Z)) : list Z :=
  match argv with
  | [] => []
  | a :: r => (match i with O => [] | _ => [32] end) ++ asm_arg a ++ asm_loop (S i) r
  end.
Definition argv_assemble (argv : list (list Z)) : list Z := asm_loop 0 argv.
