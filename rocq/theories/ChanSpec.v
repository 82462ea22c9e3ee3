(** Vocabulary for C25, C26 and C27. *)
From Verif Require Import Base ChanModel.

(** RFC 4254 section 5.3: after EOF no more data is sent (and no second EOF);
    after CLOSE nothing is sent at all. *)
Definition carries_data (m : wmsg) : Prop :=
  match m with MData _ | MExt _ _ | MEof => True | _ => False end.
Definition orderly (sent : list wmsg) : Prop :=
  (forall a b, sent = a ++ MClose :: b -> b = []) /\
  (forall a b m, sent = a ++ MEof :: b -> In m b -> ~ carries_data m).

(** Payload bytes and their number, credits. *)
Definition data_of (m : wmsg) : list Z := match m with MData d => d | _ => [] end.
Definition ext_of (m : wmsg) : list Z := match m with MExt _ d => d | _ => [] end.
Definition stream (l : list wmsg) : list Z := flat_map data_of l.
Definition estream (l : list wmsg) : list Z := flat_map ext_of l.
Definition size (m : wmsg) : Z := zlen (data_of m) + zlen (ext_of m).
Definition credit (m : wmsg) : Z := match m with MAdjust n => n | _ => 0 end.
Definition zsum (l : list Z) : Z := fold_right Z.add 0 l.
Definition volume (l : list wmsg) : Z := zsum (map size l).
Definition credits (l : list wmsg) : Z := zsum (map credit l).

(** Messages received in a history. *)
Fixpoint received (es : list ev) : list wmsg :=
  match es with
  | [] => []
  | EvRecv m :: r => m :: received r
  | _ :: r => received r
  end.

Definition prefix {A} (a b : list A) : Prop := exists c, b = a ++ c.

(** Values that fit their C types. *)
Definition u32v (n : Z) : Prop := 0 <= n < 4294967296.
Definition ok_ev (e : ev) : Prop :=
  match e with
  | EvRecv (MAdjust n) => u32v n
  | EvSetFds _ _ _ win => u32v win
  | _ => True
  end.

(** ** Two ends of a channel connected by two reliable ordered streams.
    [na] ([nb]) counts the messages already delivered to a (to b). *)
Record pair := mkPair { a : chan; b : chan; na : nat; nb : nat }.
Inductive pev := AtA (e : ev) | AtB (e : ev) | ToA | ToB.
(** Local events only; messages come from the other end. *)
Definition is_recv (e : ev) : bool := match e with EvRecv _ => true | _ => false end.
Definition pstep (s : pair) (e : pev) : option pair :=
  match e with
  | AtA e => if is_recv e then Some s else option_map (fun c => mkPair c (b s) (na s) (nb s)) (step (a s) e)
  | AtB e => if is_recv e then Some s else option_map (fun c => mkPair (a s) c (na s) (nb s)) (step (b s) e)
  | ToA => match nth_error (g_sent (c_g (b s))) (na s) with
           | None => Some s
           | Some m => option_map (fun c => mkPair c (b s) (S (na s)) (nb s)) (step (a s) (EvRecv m))
           end
  | ToB => match nth_error (g_sent (c_g (a s))) (nb s) with
           | None => Some s
           | Some m => option_map (fun c => mkPair (a s) c (na s) (S (nb s))) (step (b s) (EvRecv m))
           end
  end.
Fixpoint prun (s : pair) (es : list pev) : option pair :=
  match es with
  | [] => Some s
  | e :: r => match pstep s e with Some s' => prun s' r | None => None end
  end.

(** Local events that throw data away: a forced close, or a write error. *)
Definition forces (e : ev) : bool := match e with EvForceClose _ => true | _ => false end.
Definition fails (e : ev) : bool :=
  match e with EvForceClose _ | EvFailWrite | EvWrite WrFail => true | EvWrite (WrBytes n) => n <=? 0 | _ => false end.
(** Windows granted to a session fit in a buffer. *)
Definition okp (e : ev) : Prop :=
  match e with EvSetFds _ _ _ win => 0 <= win <= SSHBUF_SIZE_MAX | _ => True end.
Definition okpe (e : pev) : Prop := match e with AtA e | AtB e => okp e | _ => True end.

(** A channel that has just been opened, by either path. *)
Definition fresh (c : chan) : Prop :=
  (exists rw rmax lw lpk f, c = open_chan rw rmax lw lpk f /\ f_local f = false) \/
  (exists rw rmax lpk new exteof, c = larval_chan rw rmax lpk new exteof).
(** The sender [x] believes at most what the receiver [y] advertised. *)
Definition agreed (x y : chan) : Prop :=
  0 <= w_rw (c_w x) <= w_lw (c_w y) /\ 0 <= w_rmax (c_w x) <= w_lpk (c_w y) /\ w_lmax (c_w y) <= SSHBUF_SIZE_MAX.
Definition start (x y : chan) : pair := mkPair x y 0 0.

(** Bytes received while the application's side was already closed. *)
Fixpoint discarded (c : chan) (es : list ev) : Z :=
  match es with
  | [] => 0
  | e :: r =>
    (match e with EvRecv (MData d) => if is_open (p_o (c_p c)) then 0 else zlen d | _ => 0 end) +
    (match step c e with Some c' => discarded c' r | None => 0 end)
  end.
(** Nothing is thrown away on the way from a to b. *)
Definition careful (e : pev) : Prop :=
  match e with AtA e => forces e = false | AtB e => fails e = false | _ => True end.
