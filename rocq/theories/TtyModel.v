(** Terminal modes, ttymodes.c.

    The two ends may be different systems: which modes exist, their masks, the places of
    the characters, _POSIX_VDISABLE and the speed constants are parts of the [platform].
    Speeds a terminal cannot take (cfsetispeed fails) are not modelled. *)
From Verif Require Import Base Text SshbufModel WireSpec AuthOptModel Dec.
Local Open Scope Z_scope.

Inductive field := FI | FO | FC | FL.
(** A line of ttymodes.h: TTYCHAR with the place in c_cc, TTYMODE with field and mask *)
Inductive entry := EChar (i : Z) | EMode (f : field) (mask : Z).
Definition field_eqb (a b : field) : bool :=
  match a, b with FI, FI | FO, FO | FC, FC | FL, FL => true | _, _ => false end.
(** ttymodes.h as it is expanded on a system: opcode and entry.  [pl_vdisable] is None
    where _POSIX_VDISABLE is not defined; [pl_speeds] are baud rates and their constants,
    [pl_b9600] is B9600. *)
Record platform := mkPl { pl_modes : list (Z * entry); pl_vdisable : option Z; pl_speeds : list (Z * Z); pl_b9600 : Z }.
(** struct termios *)
Record termios := mkT { t_flag : field -> Z; t_cc : Z -> Z; t_in : Z; t_out : Z }.

(** ttymodes.c:72-157 speed_to_baud; the first case counts *)
Definition speed_to_baud (p : platform) (s : Z) : Z :=
  match find (fun x => snd x =? s) (pl_speeds p) with Some x => fst x | None => 9600 end.
(** ttymodes.c:161-246 baud_to_speed *)
Definition baud_to_speed (p : platform) (b : Z) : Z :=
  match find (fun x => fst x =? b) (pl_speeds p) with Some x => snd x | None => pl_b9600 p end.
(** ttymodes.c:250-258 special_char_encode *)
Definition char_encode (p : platform) (c : Z) : Z :=
  match pl_vdisable p with Some d => if c =? d then 255 else c | None => c end.
(** ttymodes.c:263-271 special_char_decode; the result is a cc_t *)
Definition char_decode (p : platform) (c : Z) : Z :=
  match pl_vdisable p with Some d => if c =? 255 then d else c mod 256 | None => c mod 256 end.

(** ** Sending *)
Definition op_arg (op v : Z) : list Z := op :: be_enc 4 v.
(** ttymodes.c:310-325: one line of ttymodes.h; [bug] is SSH_BUG_UTF8TTYMODE *)
Definition make_mode (p : platform) (bug : bool) (t : termios) (m : Z * entry) : list Z :=
  match snd m with
  | EChar i => op_arg (fst m) (char_encode p (t_cc t i))
  | EMode f mask => if (fst m =? 42) && bug then []
                    else op_arg (fst m) (if Z.land (t_flag t f) mask =? 0 then 0 else 1)
  end.
(** ttymodes.c:278-336 ssh_tty_make_modes: the string that is put into the packet;
    None if there is no terminal *)
Definition make_modes (p : platform) (bug : bool) (t : option termios) : list Z :=
  match t with
  | None => []
  | Some t => op_arg 129 (speed_to_baud p (t_out t)) ++ op_arg 128 (speed_to_baud p (t_in t)) ++
              flat_map (make_mode p bug t) (pl_modes p)
  end ++ [0].

(** ** Receiving *)
Definition set_flag (t : termios) (f : field) (v : Z) : termios :=
  mkT (fun g => if field_eqb g f then v else t_flag t g) (t_cc t) (t_in t) (t_out t).
Definition set_cc (t : termios) (i v : Z) : termios :=
  mkT (t_flag t) (fun j => if j =? i then v else t_cc t j) (t_in t) (t_out t).
(** ttymodes.c:395-411 *)
Definition apply_entry (p : platform) (t : termios) (e : entry) (u : Z) : termios :=
  match e with
  | EChar i => set_cc t i (char_decode p u)
  | EMode f mask => if u =? 0 then set_flag t f (Z.land (t_flag t f) (Z.lnot mask))
                    else set_flag t f (Z.lor (t_flag t f) mask)
  end.
(** Fatal; nothing is set; what tcsetattr is called with *)
Inductive parsed := PFatal | PNone | PSet (t : termios).
(** The (int) of a u32 *)
Definition to_int (n : Z) : Z := if n <? 2147483648 then n else n - 4294967296.
(** ttymodes.c:372-436: the loop; [fuel] bounds the number of turns *)
Fixpoint parse_loop (fuel : nat) (p : platform) (t : termios) (b : list Z) : parsed :=
  match fuel with
  | 0%nat => PFatal
  | S fuel =>
      match b with
      | [] => PSet t
      | op :: b =>
          let stop := if 0 <? zlen b then PNone else PSet t in
          if op =? 0 then stop
          else if op =? 128 then
            match get_int 4 b with None => PFatal | Some (u, b) => parse_loop fuel p (mkT (t_flag t) (t_cc t) (baud_to_speed p (to_int u)) (t_out t)) b end
          else if op =? 129 then
            match get_int 4 b with None => PFatal | Some (u, b) => parse_loop fuel p (mkT (t_flag t) (t_cc t) (t_in t) (baud_to_speed p (to_int u))) b end
          else match find (fun m => fst m =? op) (pl_modes p) with
               | Some m => match get_int 4 b with None => PFatal | Some (u, b) => parse_loop fuel p (apply_entry p t (snd m) u) b end
               | None => if (0 <? op) && (op <? 160) then
                           match get_int 4 b with None => PFatal | Some (_, b) => parse_loop fuel p t b end
                         else stop
               end
      end
  end.
(** ttymodes.c:342-451 ssh_tty_parse_modes; [t] is None if tcgetattr fails *)
Definition parse_modes (p : platform) (t : option termios) (data : list Z) : parsed :=
  if zlen data =? 0 then PNone
  else match t with
       | Some t => parse_loop (S (length data)) p t data
       | None => match parse_loop (S (length data)) p (mkT (fun _ => 0) (fun _ => 0) 0 0) data with PFatal => PFatal | _ => PNone end
       end.
