(** Several buffers sharing memory: sshbuf_from, sshbuf_fromb, sshbuf_froms,
    sshbuf_set_parent and sshbuf_free (sshbuf.c, sshbuf-getput-basic.c).

    A heap maps pointers (numbers) to buffer structures.  A buffer that owns its
    memory (sshbuf_new) or refers to memory outside the heap (sshbuf_from) is its
    own root; a derived buffer's cd points [base] bytes into its root's memory.
    Using a structure after it was freed, or memory whose root was freed, is the
    outcome [HFault UseAfterFree]; freeing a structure twice is
    [HFault DoubleFree]. *)
From Verif Require Import Base SshbufModel SshbufSpec.

(** One struct sshbuf, sshbuf.c 42-52.  [st] holds off, size, max_size, alloc,
    readonly, refcount and, for a root, the memory itself; [par] is parent;
    [live] says the structure has not been passed to free(); [held] says the
    program still owns the reference it got on creation (it has not called
    sshbuf_free on it). *)
Record cell := mkCell { st : sbuf; root : nat; base : Z; par : option nat; live : bool; held : bool }.
Record heap := mkHeap { hp : nat -> cell; hn : nat }.

Inductive hfault := UseAfterFree | DoubleFree | Sanity | BadAccess | OutOfFuel.
Inductive hout := HRet (ok : bool) (h : heap) | HFault (f : hfault).

Definition dead : cell := mkCell (mkSbuf [] 0 0 0 0 false 0) 0 0 None false false.
Definition heap0 : heap := mkHeap (fun _ => dead) 0.

Definition upd (h : heap) (i : nat) (c : cell) : heap :=
  mkHeap (fun j => if Nat.eqb j i then c else hp h j) (hn h).
Definition set_st (c : cell) (s : sbuf) : cell := mkCell s (root c) (base c) (par c) (live c) (held c).
Definition set_ref (s : sbuf) (n : Z) : sbuf :=
  mkSbuf (dat s) (off s) (size s) (max_size s) (alloc s) (readonly s) n.
Definition set_held (c : cell) (b : bool) : cell := mkCell (st c) (root c) (base c) (par c) (live c) b.
Definition set_live (c : cell) (b : bool) : cell := mkCell (st c) (root c) (base c) (par c) b (held c).

(** calloc of a new structure. *)
Definition alloc_cell (h : heap) (c : cell) : heap :=
  mkHeap (fun j => if Nat.eqb j (hn h) then c else hp h j) (S (hn h)).

(** The memory behind a structure's cd pointer (alloc bytes from it), if both
    the structure and the memory are still allocated. *)
Definition view_dat (h : heap) (i : nat) : option (list Z) :=
  let c := hp h i in
  let r := hp h (root c) in
  if live c && live r then
    if Nat.eqb (root c) i then Some (dat (st c))
    else if base c + alloc (st c) <=? zlen (dat (st r))
         then Some (ztake (alloc (st c)) (zdrop (base c) (dat (st r)))) else None
  else None.
Definition view (h : heap) (i : nat) : option sbuf :=
  option_map (fun d => set_dat (st (hp h i)) d) (view_dat h i).

(** Run a single-buffer call on buffer i.  A derived buffer's memory is not
    stored back: nothing may write through it (a theorem, not an assumption:
    [HFault BadAccess] if the call changed it). *)
Definition on_buf (h : heap) (i : nat) {A} (m : M A) (k : heap -> A -> hout) : hout :=
  match view h i with
  | None => HFault UseAfterFree
  | Some b =>
      match m b with
      | Fault _ => HFault Sanity
      | Ret r b' =>
          let c := hp h i in
          if Nat.eqb (root c) i then
            match r with
            | ROk a => k (upd h i (set_st c b')) a
            | RErr _ => HRet false (upd h i (set_st c b'))
            end
          else if beqb (dat b') (dat b) then
            match r with
            | ROk a => k (upd h i (set_st c (set_dat b' []))) a
            | RErr _ => HRet false (upd h i (set_st c (set_dat b' [])))
            end
          else HFault BadAccess
      end
  end.

(** sshbuf_from on memory inside buffer i, then sshbuf_set_parent, sshbuf.c
    111-126 and 128-142: [pos] is the position of the memory inside i's cd, [len]
    its length.  The only way the set_parent of a fresh child can fail is the
    consistency check. *)
Definition derive (h : heap) (i : nat) (pos len : Z) : hout :=
  if SSHBUF_SIZE_MAX <? len then HRet false h else
  let c := hp h i in
  let child := mkCell (mkSbuf [] 0 len len len true 1) (root c) (base c + pos) (Some i) true true in
  (* sshbuf_check_sanity(parent) *)
  if negb (live c) then HFault UseAfterFree else
  if negb (sanity (st c)) then HFault Sanity else
  let h1 := upd h i (set_st c (set_ref (st c) (refcount (st c) + 1))) in
  HRet true (alloc_cell h1 child).

(** sshbuf_fromb, sshbuf.c 144-158. *)
Definition sshbuf_fromb (h : heap) (i : nat) : hout :=
  on_buf h i (do p <- sshbuf_ptr ;; do l <- sshbuf_len ;; mret (p, l))
    (fun h' pl => derive h' i (fst pl) (snd pl)).

(** sshbuf_froms, sshbuf-getput-basic.c 546-568. *)
Definition sshbuf_froms (h : heap) (i : nat) : hout :=
  on_buf h i (do pl <- sshbuf_peek_string_direct ;;
              run sshbuf_consume (u64 (snd pl + 4)) ;; mret pl)
    (fun h' pl => derive h' i (fst pl) (snd pl)).

(** sshbuf_free, sshbuf.c 160-193.  The recursion follows parent pointers. *)
Fixpoint sshbuf_free (fuel : nat) (h : heap) (i : nat) : hout :=
  match fuel with
  | O => HFault OutOfFuel
  | S f =>
      let c := hp h i in
      if negb (live c) then HFault UseAfterFree else
      if negb (sanity (st c)) then HFault Sanity else
      let c1 := set_st c (set_ref (st c) (refcount (st c) - 1)) in
      let h1 := upd h i c1 in
      if 0 <? refcount (st c1) then HRet true h1 else
      let r := match par c with
               | None => HRet true h1
               | Some p => sshbuf_free f h1 p
               end in
      match r with
      | HRet _ h2 =>
          (* freezero(buf->d), freezero(buf) *)
          if negb (live (hp h2 i)) then HFault DoubleFree
          else HRet true (upd h2 i (set_live (hp h2 i) false))
      | o => o
      end
  end.

(** The calls a program makes.  It only uses buffers whose reference it still
    holds; other calls do nothing. *)
Inductive hop :=
| HNew
| HFrom (blob : list Z)
| HFromb (i : nat)
| HFroms (i : nat)
| HOp (i : nat) (o : op)
| HFree (i : nat).

Definition target (o : hop) : option nat :=
  match o with
  | HNew | HFrom _ => None
  | HFromb i | HFroms i | HOp i _ | HFree i => Some i
  end.

Definition hstep (h : heap) (o : hop) : hout :=
  match o with
  | HNew => HRet true (alloc_cell h (mkCell sshbuf_new (hn h) 0 None true true))
  | HFrom blob =>
      match SshbufModel.sshbuf_from blob with
      | None => HRet false h
      | Some b => HRet true (alloc_cell h (mkCell b (hn h) 0 None true true))
      end
  | _ =>
      match target o with
      | None => HRet false h
      | Some i =>
          if negb (held (hp h i)) then HRet false h else
          match o with
          | HFromb _ => sshbuf_fromb h i
          | HFroms _ => sshbuf_froms h i
          | HOp _ x => on_buf h i (do_op x) (fun h' _ => HRet true h')
          | HFree _ => sshbuf_free (S i) (upd h i (set_held (hp h i) false)) i
          | _ => HRet false h
          end
      end
  end.

Fixpoint hrun (h : heap) (l : list hop) : hout :=
  match l with
  | [] => HRet true h
  | o :: r => match hstep h o with
              | HRet _ h' => hrun h' r
              | f => f
              end
  end.
