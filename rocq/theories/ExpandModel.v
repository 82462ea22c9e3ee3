(** Expansion of tokens and environment variables, misc.c.

    Strings are without their NUL.  The environment is the parameter [env].  A result
    larger than a buffer may be (fatal) is not modelled. *)
From Verif Require Import Base Text.
Local Open Scope Z_scope.

Section Expand.
Variable env : list Z -> option (list Z).

(** strchr(string, '}'): what stands before and after it *)
Fixpoint to_brace (s : list Z) : option (list Z * list Z) :=
  match s with
  | [] => None
  | c :: r => if c =? 125 then Some ([], r)
              else match to_brace r with Some (n, t) => Some (c :: n, t) | None => None end
  end.
(** misc.c:1367-1374: the first key with the character *)
Definition lookup (keys : list (list Z * list Z)) (k : Z) : option (list Z) :=
  match find (fun x => existsb (fun c => c =? k) (fst x)) keys with Some x => Some (snd x) | None => None end.
(** What is put into the buffer and missingvar *)
Definition emit (v : list Z) (o : option (bool * list Z)) : option (bool * list Z) :=
  match o with Some (m, t) => Some (m, v ++ t) | None => None end.
Definition missing (o : option (bool * list Z)) : option (bool * list Z) :=
  match o with Some (_, t) => Some (true, t) | None => None end.
(** misc.c:1323-1380: the loop; [fuel] bounds its turns.  None: an error *)
Fixpoint expand (fuel : nat) (dollar percent : bool) (keys : list (list Z * list Z)) (s : list Z) : option (bool * list Z) :=
  match fuel with
  | 0%nat => None
  | S fuel =>
      match s with
      | [] => Some (false, [])
      | c :: r =>
          if dollar && (c =? 36) && (hd 0 r =? 123) then
            match to_brace (tl r) with
            | None => None
            | Some (name, r) =>
                if zlen name =? 0 then None
                else match env name with
                     | None => missing (expand fuel dollar percent keys r)
                     | Some v => emit v (expand fuel dollar percent keys r)
                     end
            end
          else if negb (c =? 37) || negb percent then emit [c] (expand fuel dollar percent keys r)
          else match r with
               | [] => None
               | k :: r =>
                   if k =? 37 then emit [37] (expand fuel dollar percent keys r)
                   else match lookup keys k with
                        | None => None
                        | Some v => emit v (expand fuel dollar percent keys r)
                        end
               end
      end
  end.
(** Fatal; parse error; no value; the string *)
Inductive xres := XFatal | XError | XNull | XStr (v : list Z).
(** misc.c:1283-1391 vdollar_percent_expand *)
Definition vexpand (dollar percent : bool) (keys : list (list Z * list Z)) (s : list Z) : xres :=
  if percent && ((64 <? zlen keys) || (zlen keys =? 0)) then XFatal
  else match expand (S (length s)) dollar percent keys s with
       | None => XError
       | Some (true, _) => XNull
       | Some (false, v) => XStr v
       end.
(** misc.c:1399-1413 dollar_expand *)
Definition dollar_expand (s : list Z) : xres := vexpand true false [] s.
(** misc.c:1419-1432 percent_expand *)
Definition percent_expand (keys : list (list Z * list Z)) (s : list Z) : xres :=
  match vexpand false true keys s with XError => XFatal | r => r end.
(** misc.c:1438-1451 percent_dollar_expand *)
Definition percent_dollar_expand (keys : list (list Z * list Z)) (s : list Z) : xres :=
  match vexpand true true keys s with XError => XFatal | r => r end.
End Expand.
