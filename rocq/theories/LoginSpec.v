(** Who may log in, as sshd_config(5) has it. *)
From Coq Require Import String.
From Verif Require Import Base Text MatchSpec AddrModel AddrSpec ServModel LoginModel.
Local Open Scope Z_scope.

(** A list of hosts and addresses covers a place: no entry with an exclamation mark covers it, and some other does. *)
Definition place (pton : list Z -> option xaddr) (host ip : list Z) (l : list Z) : Prop :=
  (forall x e, pton ip = Some x -> In e (split 44 l) -> negative e = true -> ~ entry_matches pton ip x e) /\
  ~ some_negative true (map tolower host) (entries l) /\
  ((exists x e, pton ip = Some x /\ In e (split 44 l) /\ negative e = false /\ entry_matches pton ip x e) \/
   some_positive true (map tolower host) (entries l)).
(** USER or USER@LIST. *)
Definition covers (pton : list Z -> option xaddr) (host ip u p : list Z) : Prop :=
  ~ In 64 p /\ glob p u \/
  exists a b, p = a ++ 64 :: b /\ ~ In 64 b /\ glob a u /\ place pton host ip b.
(** The entries of the lists are short enough to be looked at. *)
Definition short (p : list Z) : Prop := forall a b, p = a ++ 64 :: b -> ~ In 64 b -> Forall fits (entries b).

Record policy (E : env) (M : machine) (o : opts) (host ip : list Z) (a : account) : Prop := {
  unlocked : m_pam M = true \/ m_locked M (ac_name a) = false;
  shell : (exists t, o_str o chroot_directory = Some t /\ map tolower t <> bs "none") \/
          exists f mode, f = (if list_eq_dec Z.eq_dec (ac_shell a) [] then bs "/bin/sh" else ac_shell a) /\ m_stat M f = Some (true, mode) /\
                         exists bit, In bit [0; 3; 6] /\ Z.testbit mode bit = true;
  not_denied : forall p, In p (o_arr o deny_users) -> ~ covers (e_pton E) host ip (ac_name a) p;
  allowed : o_arr o allow_users = [] \/ exists p, In p (o_arr o allow_users) /\ covers (e_pton E) host ip (ac_name a) p;
  groups : o_arr o deny_groups = [] /\ o_arr o allow_groups = [] \/
           exists g gs, e_groups E (ac_name a) = Some (g :: gs) /\
             (forall h p, In h (g :: gs) -> In p (o_arr o deny_groups) -> ~ glob p h) /\
             (o_arr o allow_groups = [] \/ exists h p, In h (g :: gs) /\ In p (o_arr o allow_groups) /\ glob p h) }.
