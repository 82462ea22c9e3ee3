(** Ownership and modes of files that decide about logins, misc.c safe_path.

    Paths are canonical (what realpath returns): lists of components from the root, so
    that dirname drops the last one and the root is the empty list.  Symbolic links are
    gone with realpath. *)
From Verif Require Import Base.
Local Open Scope Z_scope.

Definition path := list (list Z).
Fixpoint path_eqb (a b : path) : bool :=
  match a, b with [], [] => true | x :: a, y :: b => beqb x y && path_eqb a b | _, _ => false end.
(** What stat tells: owner, group, mode bits, whether a regular file *)
Record st := mkSt { st_uid : Z; st_gid : Z; st_mode : Z; st_reg : bool }.

Section Safe.
(** platform_sys_dir_uid: root and, on some systems, another *)
Variable sys_uid : Z -> bool.
(** misc.c:2274-2275, 2290-2291 *)
Definition bad (uid : Z) (s : st) : bool :=
  (negb (sys_uid (st_uid s)) && negb (st_uid s =? uid)) || negb (Z.land (st_mode s) 18 =? 0).
(** misc.c:2282-2308: the loop, at a directory; its path is in reverse *)
Fixpoint walk (stat : path -> option st) (uid : Z) (home : option path) (r : path) : bool :=
  match stat (rev r) with
  | None => false
  | Some s =>
      if bad uid s then false
      else if match home with Some h => path_eqb h (rev r) | None => false end then true
      else match r with [] => true | _ :: r => walk stat uid home r end
  end.
(** misc.c:2253-2310 safe_path; [name] and [home] are what realpath makes of them,
    [s] is what fstat tells of the open file *)
Definition safe_path (stat : path -> option st) (name : option path) (s : st) (home : option path) (uid : Z) : bool :=
  match name with
  | None => false
  | Some p => if negb (st_reg s) then false
              else if bad uid s then false
              else walk stat uid home (tl (rev p))
  end.
End Safe.
