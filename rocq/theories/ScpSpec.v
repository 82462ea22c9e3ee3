(** Specification of a copy by scp with the legacy protocol.

    [path] names below a target; a file system as a map from paths to what is
    there, and what each system call does to it; a tree as a user sees it. *)
From Coq Require Import String.
From Verif Require Import Base ScpModel.
Local Open Scope Z_scope.

(** ** Paths *)
(** A name that stays in its directory. *)
Definition plain_name (n : list Z) : Prop := n <> [] /\ ~ In 47 n /\ ~ In 0 n /\ n <> bs "." /\ n <> bs "..".
(** [targ]/n1/.../nk. *)
Definition path (targ : list Z) (ns : list (list Z)) : list Z :=
  match ns with
  | [] => targ
  | _ => (if beqb targ (bs "/") then [] else targ) ++ flat_map (cons 47) ns
  end.
Definition within (targ : list Z) (p : list Z) : Prop := exists ns, Forall plain_name ns /\ p = path targ ns.
Definition at_or_in (targ : list Z) (p : list Z) : Prop := p = targ \/ exists n, plain_name n /\ p = path targ [n].

(** The path a call names.  The replies to the peer name none. *)
Definition names (e : eff) : option (list Z) :=
  match e with
  | EOk | EErr => None
  | EStat p | EMkdir p _ | EChmod p _ | EOpen p _ | EBuf p | EWrite p _ | ETrunc p _ | EFchmod p _ | EClose p | EUtimes p _ | EDtimes p _ => Some p
  end.
(** The calls that succeed or fail and on which a copy depends: not chmod and
    utimes of a directory. *)
Definition makes_dir (e : eff) : bool := match e with EMkdir _ _ | EChmod _ _ | EDtimes _ _ => true | _ => false end.
Definition file_call (e : eff) : Prop :=
  match e with EMkdir _ _ | EOpen _ _ | EWrite _ _ | ETrunc _ _ | EFchmod _ _ | EClose _ | EUtimes _ _ => True | _ => False end.
(** The permissions a call gives. *)
Definition gives (e : eff) : option Z :=
  match e with EMkdir _ m | EChmod _ m | EOpen _ m | EFchmod _ m => Some m | _ => None end.
Definition changes_mode (e : eff) : Prop := match e with EChmod _ _ | EFchmod _ _ => True | _ => False end.

(** The trace of a run, and an event with what had happened before it. *)
Definition trace (r : res) : list eff := match r with Done s | Exit s => tr s | Fuel => [] end.
Definition happens (r : res) (before : list eff) (e : eff) : Prop := exists after, trace r = after ++ e :: before.
(** The exit status is zero (scp.c:680, 720: exit(errs != 0)). *)
Definition reports_success (r : res) : Prop := exists s, r = Done s /\ errs s = 0.

(** ** Requests *)
(** A request with alternatives in braces: text and braces in turn, with no
    other special character. *)
Inductive seg := Lit (s : list Z) | Alt (l : list (list Z)).
Definition special (c : Z) : bool := (c =? 92) || (c =? 91) || (c =? 93) || (c =? 123) || (c =? 125).
Definition lit_text (s : list Z) : Prop := Forall (fun c => special c = false) s.
Definition alt_text (s : list Z) : Prop := lit_text s /\ ~ In 44 s.
Fixpoint commas (l : list (list Z)) : list Z :=
  match l with [] => [] | [x] => x | x :: r => x ++ 44 :: commas r end.
(** The last alternative is not empty: see C75_braces_refuted. *)
Definition seg_ok (g : seg) : Prop :=
  match g with Lit s => lit_text s | Alt l => l <> [] /\ Forall alt_text l /\ last l [] <> [] end.
Definition seg_text (g : seg) : list Z := match g with Lit s => s | Alt l => 123 :: commas l ++ [125] end.
Definition request (gs : list seg) : list Z := flat_map seg_text gs.
Fixpoint choice (gs : list seg) (x : list Z) : Prop :=
  match gs with
  | [] => x = []
  | Lit s :: r => exists y, choice r y /\ x = s ++ y
  | Alt l :: r => exists a y, In a l /\ choice r y /\ x = a ++ y
  end.
(** [n] is what follows the last slash of [p]. *)
Definition base_of (p n : list Z) : Prop := ~ In 47 n /\ (p = n \/ exists d, p = d ++ 47 :: n).

(** ** File systems *)
Record node := mkN { n_dir : bool; n_data : list Z; n_mode : Z; n_time : option times }.
Definition fs := list Z -> option node.
Definition put (p : list Z) (x : option node) (w : fs) : fs := fun q => if beqb q p then x else w q.
Definition upd (p : list Z) (f : node -> node) (w : fs) : fs := put p (option_map f (w p)) w.
(** What lies between a directory and what is in it: [q] is above [p]. *)
Definition above (q p : list Z) : bool := beqb (ztake (zlen q + 1) p) (q ++ [47]) || (beqb q [47] && negb (beqb p [47])).
(** A new entry changes the times of the directories above. *)
Definition untime (n : node) : node := mkN (n_dir n) (n_data n) (n_mode n) None.
Definition touch (p : list Z) (w : fs) : fs := fun q => if above q p then option_map untime (w q) else w q.
Definition overwrite (off : Z) (d old : list Z) : list Z := ztake off old ++ d ++ zdrop (off + zlen d) old.
(** The file system and the offset of the open file. *)
Definition step (umask : Z) (e : eff) (x : fs * Z) : fs * Z :=
  let '(w, off) := x in
  match e with
  | EMkdir p m => (put p (Some (mkN true [] (Z.land m (Z.lnot umask)) None)) (touch p w), off)
  | EChmod p m | EFchmod p m => (upd p (fun n => mkN (n_dir n) (n_data n) m (n_time n)) w, off)
  | EOpen p m => (match w p with
                  | Some _ => w
                  | None => put p (Some (mkN false [] (Z.land m (Z.lnot umask)) None)) (touch p w)
                  end, 0)
  | EWrite p d => (upd p (fun n => mkN (n_dir n) (overwrite off d (n_data n)) (n_mode n) None) w, off + zlen d)
  | ETrunc p k => (upd p (fun n => mkN (n_dir n) (ztake k (n_data n)) (n_mode n) None) w, off)
  | EUtimes p t | EDtimes p t => (upd p (fun n => mkN (n_dir n) (n_data n) (n_mode n) (Some t)) w, off)
  | _ => x
  end.
Definition replay (umask : Z) (w : fs) (t : list eff) : fs := fst (fold_right (step umask) (w, 0) t).
(** The process umask in force (0 with -p). *)
Definition in_force (C : conf) : Z := if c_p C then 0 else c_umask C.
(** An operating system that has this file system and fails no call. *)
Definition kind_of (x : option node) : option kind := option_map (fun n => if n_dir n then KDir else KReg) x.
Definition works (Os : os) (C : conf) (w : fs) : Prop :=
  (forall p t, os_stat Os (EStat p :: t) = kind_of (replay (in_force C) w t p)) /\
  (forall t, os_ok Os t = true) /\ (forall t, os_blk Os t <> None).

(** ** Trees *)
Definition tname (t : tree) : list Z := match t with TFile n _ _ _ | TDir n _ _ _ => n end.
(** What a sender with 64-bit sizes and times can send; the name fits in one
    message and has no newline (the sender encodes those). *)
Definition name_fits (n : list Z) : Prop := plain_name n /\ ~ In 10 n /\ is_bytes n /\ zlen n <= 1024.
Definition mode_fits (m : Z) : Prop := 0 <= m < 4096.
Definition time_fits (t : Z * Z) : Prop := 0 <= fst t <= 9223372036854775807 /\ 0 <= snd t <= 9223372036854775807.
Fixpoint sendable (t : tree) : Prop :=
  match t with
  | TFile n m tm d => name_fits n /\ mode_fits m /\ time_fits tm /\ zlen d <= 9223372036854775807
  | TDir n m tm l => name_fits n /\ mode_fits m /\ time_fits tm /\ NoDup (map tname l) /\
      (fix all (l : list tree) : Prop := match l with [] => True | x :: r => sendable x /\ all r end) l
  end.
(** What is in a tree: at the names [ns] below the place of the tree itself. *)
Inductive has : tree -> list (list Z) -> bool -> list Z -> Z -> Z * Z -> Prop :=
| has_file : forall n m tm d, has (TFile n m tm d) [] false d m tm
| has_dir : forall n m tm l, has (TDir n m tm l) [] true [] m tm
| has_in : forall n m tm l t ns k d m' tm', In t l -> has t ns k d m' tm' -> has (TDir n m tm l) (tname t :: ns) k d m' tm'.
(** Where something of the same kind, or nothing, was. *)
Definition fits (w : fs) (p : list Z) (dir : bool) : Prop := match w p with None => True | Some x => n_dir x = dir end.
(** The permissions after the copy: those sent with -p; without, those sent less
    the umask for a new file, and no change for one that was there. *)
Definition mode_after (C : conf) (w : fs) (p : list Z) (m : Z) : Z :=
  if c_p C then m
  else match w p with Some x => n_mode x | None => Z.land m (Z.lnot (c_umask C)) end.
Definition same_but_time (a b : option node) : Prop := option_map untime a = option_map untime b.
(** The tree is at [p]; [sp]: times were sent. *)
Definition arrived (C : conf) (sp : bool) (w w' : fs) (p : list Z) (t : tree) : Prop :=
  forall ns k d m tm, has t ns k d m tm ->
    exists x, w' (path p ns) = Some x /\ n_dir x = k /\ (k = false -> n_data x = d) /\
              n_mode x = mode_after C w (path p ns) m /\
              (sp = true -> n_time x = Some (mkT (fst tm) 0 (snd tm) 0)).
(** What the sender waits for. *)
Local Open Scope nat_scope.
Fixpoint replies (p : bool) (t : tree) : nat :=
  (if p then 1 else 0) +
  match t with
  | TFile _ _ _ _ => 2
  | TDir _ _ _ l => 2 + (fix sum (l : list tree) := match l with [] => 0 | x :: r => replies p x + sum r end) l
  end.
Local Open Scope Z_scope.
Definition answers (t : list eff) : list eff := filter (fun e => match e with EOk | EErr => true | _ => false end) t.
