(** What sharing of buffers should look like to a program. *)
From Verif Require Import Base SshbufModel SshbufSpec SshbufHeapModel.

(** The bytes the program can read from buffer i. *)
Definition readable (h : heap) (i : nat) : option (list Z) := option_map contents (view h i).

(** Calls with arguments a C program can pass. *)
Definition hop_ok (o : hop) : Prop :=
  match o with
  | HFrom blob => is_bytes blob
  | HOp _ x => op_ok x /\ keeps_limit x
  | _ => True
  end.

(** How many allocated buffers were derived directly from buffer i. *)
Definition children (h : heap) (i : nat) : nat :=
  length (filter (fun k => live (hp h k) && match par (hp h k) with Some p => Nat.eqb p i | None => false end)
                 (seq 0 (hn h))).
(** The reference counter stops at 2^20 (sshbuf.h, SSHBUF_REFS_MAX): no buffer
    has more than 2^20 - 1 views directly on it at the same time. *)
Definition roomy (h : heap) (o : hop) : Prop :=
  match o with
  | HFromb i | HFroms i => (Z.of_nat (children h i) < 1048575)%Z
  | _ => True
  end.
(** Histories of such calls; nothing limits their length. *)
Fixpoint hist_from (h : heap) (l : list hop) : Prop :=
  match l with
  | [] => True
  | o :: r => hop_ok o /\ roomy h o /\
              match hstep h o with HRet _ h' => hist_from h' r | HFault _ => True end
  end.
Definition hist_ok (l : list hop) : Prop := hist_from heap0 l.
Definition reached (h : heap) : Prop := exists l b, hist_ok l /\ hrun heap0 l = HRet b h.

(** What a call on buffer i that succeeds or fails means to the program: the new
    buffer (its number is the old [hn]) holds the parent's contents, or the
    string at its front; a freed buffer is no longer the program's. *)
Definition derived_as (h : heap) (o : hop) (ok : bool) (h' : heap) : Prop :=
  match o with
  | HFromb i => held (hp h i) = true ->
      ok = true /\ hn h' = S (hn h) /\ held (hp h' (hn h)) = true /\ held (hp h' i) = true /\
      exists c, readable h i = Some c /\ readable h' i = Some c /\ readable h' (hn h) = Some c
  | HFroms i => held (hp h i) = true ->
      held (hp h' i) = true /\ exists c, readable h i = Some c /\
      match dec_string c with
      | ROk (v, rest) => ok = true /\ hn h' = S (hn h) /\ held (hp h' (hn h)) = true /\
          readable h' i = Some rest /\ readable h' (hn h) = Some v
      | RErr _ => ok = false /\ hn h' = hn h /\ readable h' i = Some c
      end
  | HOp i _ => held (hp h i) = true -> hn h' = hn h /\ held (hp h' i) = true
  | HFree i => hn h' = hn h /\ held (hp h' i) = false
  | _ => True
  end.
(** Buffer i was derived directly from buffer p. *)
Definition child_of (h : heap) (i p : nat) : Prop := par (hp h i) = Some p.
