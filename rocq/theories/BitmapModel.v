(** bitmap.c: bit sets kept as an array of 32-bit words.

    Word accesses are checked: [None] is an access outside the [len] allocated
    words (or outside the caller's byte buffer), which in C is undefined.
    [aok] says whether the allocator succeeds. *)
From Verif Require Import Base.

Definition BITMAP_BITS : Z := 32.
Definition BITMAP_BYTES : Z := 4.
Definition BITMAP_MAX : Z := 16777216.      (* 1<<24 *)

(** 29-33 (struct bitmap); [len] is the length of [d] *)
Record bitmap := mkB { d : list Z; top : Z }.
Definition len (b : bitmap) : Z := zlen (d b).

(** a[i], and a[i] = v *)
Definition rd (a : list Z) (i : Z) : option Z :=
  if (0 <=? i) && (i <? zlen a) then Some (nth (Z.to_nat i) a 0) else None.
Definition wr (a : list Z) (i v : Z) : option (list Z) :=
  if (0 <=? i) && (i <? zlen a) then Some (ztake i a ++ v :: zdrop (i + 1) a) else None.

(** 35-49 (bitmap_new) *)
Definition bitmap_new : bitmap := mkB [0] 0.
(** 62-67 (bitmap_zero) *)
Definition bitmap_zero (b : bitmap) : bitmap := mkB (repeat 0 (length (d b))) 0.
(** 69-77 (bitmap_test_bit) *)
Definition bitmap_test_bit (b : bitmap) (n : Z) : option bool :=
  if len b <=? top b then Some false else
  if (len b =? 0) || (top b <? n / BITMAP_BITS) then Some false else
  match rd (d b) (n / BITMAP_BITS) with
  | None => None
  | Some w => Some (Z.land (Z.shiftr w (Z.land n (BITMAP_BITS - 1))) 1 =? 1)
  end.
(** 79-96 (reserve): [None] is the -1 result; recallocarray clears the new words *)
Definition reserve (aok : bool) (b : bitmap) (n : Z) : option bitmap :=
  if (len b <=? top b) || (BITMAP_MAX <? n) then None else
  let nlen := n / BITMAP_BITS + 1 in
  if len b <? nlen then
    if aok then Some (mkB (d b ++ repeat 0 (Z.to_nat (nlen - len b))) (top b)) else None
  else Some b.
(** 98-112 (bitmap_set_bit); the boolean is "returned 0" *)
Definition bitmap_set_bit (aok : bool) (b : bitmap) (n : Z) : option (bool * bitmap) :=
  match reserve aok b n with
  | None => Some (false, b)
  | Some b1 =>
    let offset := n / BITMAP_BITS in
    let t := if top b1 <? offset then offset else top b1 in
    match rd (d b1) offset with
    | None => None
    | Some w =>
      match wr (d b1) offset (Z.lor w (u32 (Z.shiftl 1 (Z.land n (BITMAP_BITS - 1))))) with
      | None => None
      | Some d' => Some (true, mkB d' t)
      end
    end
  end.
(** 114-122 (retop) *)
Fixpoint retop_loop (fuel : nat) (a : list Z) (t : Z) : option Z :=
  match fuel with
  | O => None
  | S f => if 0 <? t then match rd a t with None => None | Some w => if w =? 0 then retop_loop f a (t - 1) else Some t end
           else Some t
  end.
Definition retop (b : bitmap) : option bitmap :=
  if len b <=? top b then Some b else
  match retop_loop (S (length (d b))) (d b) (top b) with None => None | Some t => Some (mkB (d b) t) end.
(** 124-138 (bitmap_clear_bit) *)
Definition bitmap_clear_bit (b : bitmap) (n : Z) : option bitmap :=
  if (len b <=? top b) || (BITMAP_MAX <? n) then Some b else
  let offset := n / BITMAP_BITS in
  if top b <? offset then Some b else
  match rd (d b) offset with
  | None => None
  | Some w =>
    match wr (d b) offset (Z.land w (U32 - 1 - u32 (Z.shiftl 1 (Z.land n (BITMAP_BITS - 1))))) with
    | None => None
    | Some d' => retop (mkB d' (top b))
    end
  end.
(** 140-159 (bitmap_nbits); it may lower [top].  The search for the most
    significant bit gives up ([None]) after as many steps as there are bits. *)
Fixpoint msb_loop (fuel : nat) (w bits : Z) : option Z :=
  match fuel with
  | O => None
  | S f => if Z.land w (Z.shiftl 1 (BITMAP_BITS - 1)) =? 0 then msb_loop f (u32 (Z.shiftl w 1)) (bits - 1) else Some bits
  end.
Definition bitmap_nbits (b : bitmap) : option (Z * bitmap) :=
  match retop b with
  | None => None
  | Some b =>
    if len b <=? top b then Some (0, b) else
    if len b =? 0 then Some (0, b) else
    match rd (d b) 0 with
    | None => None
    | Some w0 =>
      if (top b =? 0) && (w0 =? 0) then Some (0, b) else
      match rd (d b) (top b) with
      | None => None
      | Some w => match msb_loop (Z.to_nat BITMAP_BITS) w ((top b + 1) * BITMAP_BITS) with
                  | None => None | Some n => Some (n, b) end
      end
    end
  end.
(** 161-165 (bitmap_nbytes) *)
Definition bitmap_nbytes (b : bitmap) : option (Z * bitmap) :=
  match bitmap_nbits b with None => None | Some (n, b) => Some ((n + 7) / 8, b) end.
(** 167-186 (bitmap_to_string): [p] is the caller's buffer, of size [l].  The
    loop over i and j is one loop over the byte number k = 4*i + j, which is
    how the two counters advance until k reaches l. *)
Fixpoint to_string_loop (fuel : nat) (a : list Z) (need l k : Z) (p : list Z) : option (list Z) :=
  match fuel with
  | O => Some p
  | S f =>
    if l <=? k then Some p else
    match rd a (k / BITMAP_BYTES) with
    | None => None
    | Some w =>
      match wr p (need - 1 - k) (Z.land (Z.shiftr w (k mod BITMAP_BYTES * 8)) 255) with
      | None => None
      | Some p' => to_string_loop f a need l (k + 1) p'
      end
    end
  end.
Definition bitmap_to_string (b : bitmap) (p : list Z) : option (bool * list Z * bitmap) :=
  match bitmap_nbytes b with
  | None => None
  | Some (need, b) =>
    let l := zlen p in
    if (l <? need) || (len b <=? top b) then Some (false, p, b) else
    let l := if need <? l then need else l in
    match to_string_loop (Z.to_nat ((top b + 1) * BITMAP_BYTES)) (d b) need l 0 p with
    | None => None
    | Some p' => Some (true, p', b)
    end
  end.
(** 188-214 (bitmap_from_string) *)
Fixpoint from_string_loop (s : list Z) (a : list Z) (offset shift : Z) : option (list Z) :=
  match s with
  | [] => Some a
  | c :: s' =>
    match rd a offset with
    | None => None
    | Some w =>
      match wr a offset (Z.lor w (u32 (Z.shiftl c shift))) with
      | None => None
      | Some a' => if shift =? 0 then from_string_loop s' a' (u64 (offset - 1)) (BITMAP_BITS - 8)
                   else from_string_loop s' a' offset (shift - 8)
      end
    end
  end.
Definition bitmap_from_string (aok : bool) (b : bitmap) (s : list Z) : option (bool * bitmap) :=
  let l := zlen s in
  if BITMAP_MAX / 8 <? l then Some (false, b) else
  match reserve aok b (u32 (l * 8)) with
  | None => Some (false, b)
  | Some b1 =>
    let b2 := bitmap_zero b1 in
    if l =? 0 then Some (true, b2) else
    let offset := (l + (BITMAP_BYTES - 1)) / BITMAP_BYTES - 1 in
    let shift := (l + (BITMAP_BYTES - 1)) mod BITMAP_BYTES * 8 in
    match from_string_loop s (d b2) offset shift with
    | None => None
    | Some a => match retop (mkB a offset) with None => None | Some b3 => Some (true, b3) end
    end
  end.

(** ** Histories *)
Inductive bop :=
| BSet (n : Z) (aok : bool)
| BClear (n : Z)
| BTest (n : Z)
| BZero
| BNbits
| BNbytes
| BToString (buf : list Z)
| BFromString (s : list Z) (aok : bool).
Inductive bout := OVoid | OInt (r : Z) | OBytes (r : Z) (buf : list Z).

Definition rc (ok : bool) : Z := if ok then 0 else -1.
Definition bstep (b : bitmap) (o : bop) : option (bout * bitmap) :=
  match o with
  | BSet n aok => match bitmap_set_bit aok b n with None => None | Some (ok, b') => Some (OInt (rc ok), b') end
  | BClear n => match bitmap_clear_bit b n with None => None | Some b' => Some (OVoid, b') end
  | BTest n => match bitmap_test_bit b n with None => None | Some r => Some (OInt (if r then 1 else 0), b) end
  | BZero => Some (OVoid, bitmap_zero b)
  | BNbits => match bitmap_nbits b with None => None | Some (n, b') => Some (OInt n, b') end
  | BNbytes => match bitmap_nbytes b with None => None | Some (n, b') => Some (OInt n, b') end
  | BToString p => match bitmap_to_string b p with None => None | Some (ok, p', b') => Some (OBytes (rc ok) p', b') end
  | BFromString s aok => match bitmap_from_string aok b s with None => None | Some (ok, b') => Some (OInt (rc ok), b') end
  end.
Fixpoint bruns (b : bitmap) (os : list bop) : option (list bout * bitmap) :=
  match os with
  | [] => Some ([], b)
  | o :: os' =>
    match bstep b o with
    | None => None
    | Some (r, b') => match bruns b' os' with None => None | Some (rs, b'') => Some (r :: rs, b'') end
    end
  end.
