(** Vocabulary for C85: who can change a file. *)
From Verif Require Import Base SafepModel.
Local Open Scope Z_scope.

Definition above (d p : path) : Prop := exists r, r <> [] /\ p = d ++ r.
Definition at_or_above (d p : path) : Prop := exists r, p = d ++ r.
(** Owned by the user or the system, and not writable by group or others *)
Definition kept (sys_uid : Z -> bool) (uid : Z) (s : st) : Prop :=
  (sys_uid (st_uid s) = true \/ st_uid s = uid) /\ Z.testbit (st_mode s) 4 = false /\ Z.testbit (st_mode s) 1 = false.
(** A file system: each path has a node with its contents, or none *)
Definition tree := path -> option (st * list Z).
(** Users, with their groups; what the mode bits let them write *)
Definition may_write (v : Z) (groups : Z -> Prop) (s : st) : Prop :=
  v = 0 \/
  (v = st_uid s /\ Z.testbit (st_mode s) 7 = true) \/
  (v <> st_uid s /\ groups (st_gid s) /\ Z.testbit (st_mode s) 4 = true) \/
  (v <> st_uid s /\ ~ groups (st_gid s) /\ Z.testbit (st_mode s) 1 = true).
(** One thing that a user does: write a file; change the mode, group or owner of what is
    theirs; or, with write permission for a directory, put anything in the place of an
    entry and all below it.  Search permission and sticky bits would only restrict this. *)
Inductive act (v : Z) (groups : Z -> Prop) (t : tree) : tree -> Prop :=
| a_write : forall p s d d', t p = Some (s, d) -> may_write v groups s ->
    act v groups t (fun q => if path_eqb q p then Some (s, d') else t q)
| a_chmod : forall p s d s', t p = Some (s, d) -> v = st_uid s \/ v = 0 ->
    act v groups t (fun q => if path_eqb q p then Some (s', d) else t q)
| a_entry : forall p c s d t', t p = Some (s, d) -> may_write v groups s ->
    (forall q, ~ at_or_above (p ++ [c]) q -> t' q = t q) -> act v groups t t'.
(** What others do: any number of users, none of them the user or the system *)
Inductive others (sys_uid : Z -> bool) (uid : Z) : tree -> tree -> Prop :=
| o_none : forall t, others sys_uid uid t t
| o_act : forall v groups t t1 t2, v <> uid -> v <> 0 -> sys_uid v = false -> act v groups t t1 -> others sys_uid uid t1 t2 -> others sys_uid uid t t2.
Definition stat_of (t : tree) (p : path) : option st := match t p with Some (s, _) => Some s | None => None end.
