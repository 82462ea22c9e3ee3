(** Vocabulary for C83: terminal modes. *)
From Verif Require Import Base WireSpec TtyModel.
Local Open Scope Z_scope.

(** Settings, an opcode and a value each, as bytes (RFC 4254, section 8) *)
Inductive settings : list (Z * Z) -> list Z -> Prop :=
| st_nil : settings [] []
| st_cons : forall op v ss l, 1 <= op < 160 -> 0 <= v < 4294967296 -> settings ss l ->
    settings ((op, v) :: ss) ([op] ++ be_enc 4 v ++ l).
(** What ends them: the end of the data, the opcode 0 or one that has no meaning *)
Definition ends (l : list Z) : Prop := l = [] \/ exists op, l = [op] /\ (op = 0 \/ 160 <= op).
(** A system's table: opcodes are in range, are not those of the speeds, occur once *)
Definition table_ok (p : platform) : Prop :=
  NoDup (map fst (pl_modes p)) /\ Forall (fun m => 1 <= fst m < 128) (pl_modes p).
(** A bit of a field is a mode of its own: it is its mask, and no other mode has it *)
Definition own_bit (p : platform) (op : Z) (f : field) (mask n : Z) : Prop :=
  In (op, EMode f mask) (pl_modes p) /\ 0 <= n /\ mask = 2 ^ n /\
  forall op' mask', In (op', EMode f mask') (pl_modes p) -> op' <> op -> Z.testbit mask' n = false.
(** A character has a place of its own *)
Definition own_char (p : platform) (op i : Z) : Prop :=
  In (op, EChar i) (pl_modes p) /\ forall op', In (op', EChar i) (pl_modes p) -> op' = op.
(** Characters are bytes *)
Definition chars_ok (t : termios) : Prop := forall i, 0 <= t_cc t i < 256.
(** Speeds are ints *)
Definition speeds_ok (p : platform) : Prop := Forall (fun x => 0 <= fst x < 2147483648) (pl_speeds p).
(** The value of the last setting of an opcode *)
Fixpoint last_of (op : Z) (ss : list (Z * Z)) : option Z :=
  match ss with
  | [] => None
  | (o, v) :: r => match last_of op r with Some w => Some w | None => if o =? op then Some v else None end
  end.
Definition setting_or {A} (o : option Z) (g : Z -> A) (old : A) : A := match o with Some v => g v | None => old end.
(** The constant for a baud rate, B9600 if there is none *)
Definition constant_for (p : platform) (baud c : Z) : Prop :=
  (exists pre post, pl_speeds p = pre ++ (baud, c) :: post /\ ~ In baud (map fst pre)) \/ (~ In baud (map fst (pl_speeds p)) /\ c = pl_b9600 p).
(** The baud rate of a constant, 9600 if it is none *)
Definition baud_of (p : platform) (c baud : Z) : Prop :=
  (exists pre post, pl_speeds p = pre ++ (baud, c) :: post /\ ~ In c (map snd pre)) \/ (~ In c (map snd (pl_speeds p)) /\ baud = 9600).
(** What is left of a terminal [t] after the settings: the last one of each opcode
    counts, what is not set stays.  A character is a byte; 255 means none. *)
Definition meant (p : platform) (t : termios) (ss : list (Z * Z)) (t' : termios) : Prop :=
  match last_of 128 ss with Some v => v < 2147483648 -> constant_for p v (t_in t') | None => t_in t' = t_in t end /\
  match last_of 129 ss with Some v => v < 2147483648 -> constant_for p v (t_out t') | None => t_out t' = t_out t end /\
  (forall op f mask n, own_bit p op f mask n ->
     Z.testbit (t_flag t' f) n = setting_or (last_of op ss) (fun v => negb (v =? 0)) (Z.testbit (t_flag t f) n)) /\
  (forall f n, 0 <= n -> (forall op mask, In (op, EMode f mask) (pl_modes p) -> Z.testbit mask n = false) ->
     Z.testbit (t_flag t' f) n = Z.testbit (t_flag t f) n) /\
  (forall op i, own_char p op i ->
     t_cc t' i = setting_or (last_of op ss)
       (fun v => match pl_vdisable p with Some d => if v =? 255 then d else v mod 256 | None => v mod 256 end) (t_cc t i)) /\
  (forall i, (forall op, ~ In (op, EChar i) (pl_modes p)) -> t_cc t' i = t_cc t i).
