(** kex-names.c: name-list concatenation and the +, -, ^ edits.  The algorithm
    tables themselves are parameters ([def], [all]).  Allocation failure is not
    modelled; the 1 MiB limit of kex_names_cat is. *)
From Coq Require Import String.
From Verif Require Import Base Text MatchModel.

(** kex_has_any_alg, kex-names.c 187-196. *)
Definition kex_has_any_alg (proposal algs : list Z) : bool :=
  match match_list proposal algs with Some _ => true | None => false end.

(** The loop of kex_names_cat, 221-230; [len] is the size of the output buffer,
    None the "Shouldn't happen" truncation. *)
Fixpoint cat_scan (fs : list (list Z)) (ret : list Z) (len : Z) : option (list Z) :=
  match fs with
  | [] => Some ret
  | p :: r =>
      if is_nil p then Some ret
      else if kex_has_any_alg ret p then cat_scan r ret len
      else if (len <=? zlen ret + 1) || (len <=? zlen ret + 1 + zlen p) then None
      else cat_scan r (ret ++ COMMA :: p) len
  end.
(** kex_names_cat, kex-names.c 202-233; a NULL argument is given as []. *)
Definition kex_names_cat (a b : list Z) : option (list Z) :=
  if is_nil a then Some b
  else if is_nil b then Some a
  else if 1048576 <? zlen b then None
  else cat_scan (split COMMA b) a (zlen a + zlen b + 2).

(** The pattern loop of kex_assemble_names, 300-317.  [inl] is the list so far,
    [inr] an error. *)
Inductive aerr := InvalidArgument | AllocFail | Diverged.
Fixpoint asm_scan (fs : list (list Z)) (all : list Z) (ret : list Z) : list Z + aerr :=
  match fs with
  | [] => inl ret
  | cp :: r =>
      if match cp with c :: _ => c =? BANG | [] => false end then inr InvalidArgument
      else match match_filter_allowlist all cp with
           | None => inr Diverged
           | Some matching =>
               match kex_names_cat ret matching with
               | None => inr AllocFail
               | Some tmp => asm_scan r all tmp
               end
           end
  end.
(** kex_assemble_names, kex-names.c 242-336.  [lst] is *listp on entry (NULL is
    given as []); the result is *listp on success. *)
Definition asm_patterns (lst all : list Z) : list Z + aerr :=
  match asm_scan (split COMMA lst) all [] with
  | inl [] => inr InvalidArgument
  | r => r
  end.
Definition kex_assemble_names (lst def all : list Z) : list Z + aerr :=
  match lst with
  | [] => inl def
  | c :: rest =>
      if c =? 43 (* '+' *) then
        match kex_names_cat def rest with
        | None => inr AllocFail
        | Some l => asm_patterns l all
        end
      else if c =? 45 (* '-' *) then
        match match_filter_denylist def rest with
        | None => inr Diverged
        | Some l => inl l
        end
      else if c =? 94 (* '^' *) then
        match kex_names_cat rest def with
        | None => inr AllocFail
        | Some l => asm_patterns l all
        end
      else asm_patterns lst all
  end.
