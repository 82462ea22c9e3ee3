(** One session or forwarding channel: the half-close machine of nchan.c and the
    data and window handling of channels.c.

    Modelled: channels of type OPEN, LARVAL, ABANDONED and ZOMBIE with plain byte
    streams.  Not modelled: datagram and filtered channels, multiplexing proxies,
    SOCKS and X11 set-up states, the descriptors behind rfd, wfd and sock (their
    read and write results are given by the environment), inactivity timers.  The
    ghost part [c_g] records what crossed the API: messages handed to the packet
    layer and bytes exchanged with the descriptors. *)
From Verif Require Import Base.

(** channels.h:50-75 (those modelled) *)
Inductive ctype := TOpen | TLarval | TAbandoned | TZombie.
(** channels.h:226-236; WAIT_OCLOSE and WAIT_IEOF are never entered. *)
Inductive half := HOpen | HDrain | HClosed.
(** channels.h:212-214 *)
Inductive usage := UIgnore | URead | UWrite.

(** Messages on a channel: SSH2_MSG_CHANNEL_DATA, EXTENDED_DATA, EOF, CLOSE,
    WINDOW_ADJUST and the request "eow@openssh.com". *)
Inductive wmsg := MData (d : list Z) | MExt (code : Z) (d : list Z) | MEof | MClose | MAdjust (n : Z) | MEow.

(** channels.h:123-200 *)
Record proto := mkP {
  p_ty : ctype; p_i : half; p_o : half;
  p_cs : bool; p_cr : bool;      (* CHAN_CLOSE_SENT, CHAN_CLOSE_RCVD *)
  p_es : bool; p_er : bool;      (* CHAN_EOF_SENT, CHAN_EOF_RCVD *)
}.
Record bufs := mkB { b_in : list Z; b_out : list Z; b_ext : list Z }.
Record wins := mkW {
  w_rw : Z; w_rmax : Z;          (* remote_window, remote_maxpacket *)
  w_lw : Z; w_exc : Z;           (* local_window, local_window_exceeded *)
  w_lmax : Z; w_cons : Z; w_lpk : Z;  (* local_window_max, local_consumed, local_maxpacket *)
}.
Record conf := mkF {
  f_efd : bool;                  (* efd != -1 *)
  f_use : usage;                 (* extended_usage *)
  f_local : bool;                (* CHAN_LOCAL *)
  f_session : bool;              (* ctype is "session" *)
  f_fdrain : bool;               (* force_drain *)
  f_detach : bool;               (* detach_user != NULL *)
  f_dclose : bool;               (* detach_close *)
  f_tty : bool;                  (* isatty *)
  f_new : bool;                  (* ssh->compat & SSH_NEW_OPENSSH *)
  f_exteof : bool;               (* ssh->compat & SSH_BUG_EXTEOF *)
}.
Record ghost := mkG {
  g_sent : list wmsg;            (* messages sent, oldest first *)
  g_read : list Z; g_eread : list Z;        (* bytes taken from rfd, from efd *)
  g_written : list Z; g_ewritten : list Z;  (* bytes written to wfd, to efd *)
  g_freed : bool;                (* channel_free was called *)
}.
Record chan := mkC { c_p : proto; c_b : bufs; c_w : wins; c_f : conf; c_g : ghost }.

Definition set_p (c : chan) p := mkC p (c_b c) (c_w c) (c_f c) (c_g c).
Definition set_b (c : chan) b := mkC (c_p c) b (c_w c) (c_f c) (c_g c).
Definition set_w (c : chan) w := mkC (c_p c) (c_b c) w (c_f c) (c_g c).
Definition set_f (c : chan) f := mkC (c_p c) (c_b c) (c_w c) f (c_g c).
Definition set_g (c : chan) g := mkC (c_p c) (c_b c) (c_w c) (c_f c) g.

Definition set_i (c : chan) (i : half) : chan :=
  let p := c_p c in set_p c (mkP (p_ty p) i (p_o p) (p_cs p) (p_cr p) (p_es p) (p_er p)).
Definition set_o (c : chan) (o : half) : chan :=
  let p := c_p c in set_p c (mkP (p_ty p) (p_i p) o (p_cs p) (p_cr p) (p_es p) (p_er p)).
Definition set_ty (c : chan) (t : ctype) : chan :=
  let p := c_p c in set_p c (mkP t (p_i p) (p_o p) (p_cs p) (p_cr p) (p_es p) (p_er p)).
Definition set_cs (c : chan) : chan :=
  let p := c_p c in set_p c (mkP (p_ty p) (p_i p) (p_o p) true (p_cr p) (p_es p) (p_er p)).
Definition set_cr (c : chan) : chan :=
  let p := c_p c in set_p c (mkP (p_ty p) (p_i p) (p_o p) (p_cs p) true (p_es p) (p_er p)).
Definition set_es (c : chan) : chan :=
  let p := c_p c in set_p c (mkP (p_ty p) (p_i p) (p_o p) (p_cs p) (p_cr p) true (p_er p)).
Definition set_er (c : chan) : chan :=
  let p := c_p c in set_p c (mkP (p_ty p) (p_i p) (p_o p) (p_cs p) (p_cr p) (p_es p) true).
Definition set_in (c : chan) x := let b := c_b c in set_b c (mkB x (b_out b) (b_ext b)).
Definition set_out (c : chan) x := let b := c_b c in set_b c (mkB (b_in b) x (b_ext b)).
Definition set_ext (c : chan) x := let b := c_b c in set_b c (mkB (b_in b) (b_out b) x).
Definition set_rw (c : chan) x :=
  let w := c_w c in set_w c (mkW x (w_rmax w) (w_lw w) (w_exc w) (w_lmax w) (w_cons w) (w_lpk w)).
Definition set_local (c : chan) lw exc lmax cons :=
  let w := c_w c in set_w c (mkW (w_rw w) (w_rmax w) lw exc lmax cons (w_lpk w)).
Definition set_efd (c : chan) (e : bool) (u : usage) :=
  let f := c_f c in set_f c (mkF e u (f_local f) (f_session f) (f_fdrain f) (f_detach f) (f_dclose f) (f_tty f) (f_new f) (f_exteof f)).
Definition set_detach (c : chan) (d dc : bool) :=
  let f := c_f c in set_f c (mkF (f_efd f) (f_use f) (f_local f) (f_session f) (f_fdrain f) d dc (f_tty f) (f_new f) (f_exteof f)).
Definition set_tty (c : chan) (t : bool) :=
  let f := c_f c in set_f c (mkF (f_efd f) (f_use f) (f_local f) (f_session f) (f_fdrain f) (f_detach f) (f_dclose f) t (f_new f) (f_exteof f)).
(** sshpkt_start .. sshpkt_send of a channel message; the remote id is known. *)
Definition send (c : chan) (m : wmsg) : chan :=
  let g := c_g c in set_g c (mkG (g_sent g ++ [m]) (g_read g) (g_eread g) (g_written g) (g_ewritten g) (g_freed g)).
Definition note_read (c : chan) x :=
  let g := c_g c in set_g c (mkG (g_sent g) (g_read g ++ x) (g_eread g) (g_written g) (g_ewritten g) (g_freed g)).
Definition note_eread (c : chan) x :=
  let g := c_g c in set_g c (mkG (g_sent g) (g_read g) (g_eread g ++ x) (g_written g) (g_ewritten g) (g_freed g)).
Definition note_written (c : chan) x :=
  let g := c_g c in set_g c (mkG (g_sent g) (g_read g) (g_eread g) (g_written g ++ x) (g_ewritten g) (g_freed g)).
Definition note_ewritten (c : chan) x :=
  let g := c_g c in set_g c (mkG (g_sent g) (g_read g) (g_eread g) (g_written g) (g_ewritten g ++ x) (g_freed g)).
Definition set_freed (c : chan) :=
  let g := c_g c in set_g c (mkG (g_sent g) (g_read g) (g_eread g) (g_written g) (g_ewritten g) true).

Definition empty {A} (l : list A) : bool := match l with [] => true | _ => false end.
Definition is_read (u : usage) : bool := match u with URead => true | _ => false end.
Definition is_write (u : usage) : bool := match u with UWrite => true | _ => false end.
Definition is_open (h : half) : bool := match h with HOpen => true | _ => false end.
Definition is_drain (h : half) : bool := match h with HDrain => true | _ => false end.
Definition is_closed (h : half) : bool := match h with HClosed => true | _ => false end.
Definition ty_open (t : ctype) : bool := match t with TOpen => true | _ => false end.
Definition ty_larval (t : ctype) : bool := match t with TLarval => true | _ => false end.

(** channels.h:271-278 *)
Definition efd_input_active (c : chan) : bool :=
  is_read (f_use (c_f c)) && (f_efd (c_f c) || negb (empty (b_ext (c_b c)))).
Definition efd_output_active (c : chan) : bool :=
  is_write (f_use (c_f c)) && f_efd (c_f c) &&
  (negb (p_er (c_p c) || p_cr (c_p c)) || negb (empty (b_ext (c_b c)))).

(** ** nchan.c *)
(** nchan.c:189-211 *)
Definition chan_send_eof2 (c : chan) : chan :=
  if is_drain (p_i (c_p c)) then set_es (send c MEof) else c.
(** nchan.c:213-238 *)
Definition chan_send_close2 (c : chan) : chan :=
  if negb (is_closed (p_o (c_p c)) && is_closed (p_i (c_p c))) then c
  else if p_cs (c_p c) then c
  else set_cs (send c MClose).
(** nchan.c:240-262 *)
Definition chan_send_eow2 (c : chan) : chan :=
  if is_closed (p_o (c_p c)) then c
  else if f_new (c_f c) then send c MEow else c.
(** nchan.c:398-422; descriptors are not modelled *)
Definition chan_shutdown_write (c : chan) : chan := set_out c [].
(** nchan.c:452-470 *)
Definition chan_shutdown_extended_read (c : chan) : chan :=
  if ty_larval (p_ty (c_p c)) || negb (f_efd (c_f c)) then c
  else if is_write (f_use (c_f c)) then c
  else set_efd c false (f_use (c_f c)).
(** nchan.c:116-131 *)
Definition chan_read_failed (c : chan) : chan :=
  if is_open (p_i (c_p c)) then set_i c HDrain else c.
(** nchan.c:133-153 *)
Definition chan_ibuf_empty (c : chan) : chan :=
  if negb (empty (b_in (c_b c))) then c
  else if is_drain (p_i (c_p c)) then
    let c := if negb (p_cs (c_p c) || f_local (c_f c)) then chan_send_eof2 c else c in
    set_i c HClosed
  else c.
(** nchan.c:155-174 *)
Definition chan_obuf_empty (c : chan) : chan :=
  if negb (empty (b_out (c_b c))) then c
  else if is_drain (p_o (c_p c)) then set_o (chan_shutdown_write c) HClosed
  else c.
(** nchan.c:176-187 *)
Definition chan_rcvd_eow (c : chan) : chan :=
  if is_open (p_i (c_p c)) then set_i c HClosed else c.
(** nchan.c:266-277 *)
Definition chan_rcvd_ieof (c : chan) : chan :=
  let c := set_er c in
  let c := if is_open (p_o (c_p c)) then set_o c HDrain else c in
  if is_drain (p_o (c_p c)) && empty (b_out (c_b c)) && negb (efd_output_active c) then chan_obuf_empty c else c.
(** nchan.c:279-318 *)
Definition chan_rcvd_oclose (c : chan) : chan :=
  let c := if f_local (c_f c) then c else set_cr c in
  if ty_larval (p_ty (c_p c)) then set_i (set_o c HClosed) HClosed
  else
    let c := if is_open (p_o (c_p c)) then set_o c HDrain else c in
    match p_i (c_p c) with
    | HOpen => set_i (chan_shutdown_extended_read c) HClosed
    | HDrain =>
      let c := if f_local (c_f c) then c else chan_send_eof2 c in
      set_i (chan_shutdown_extended_read c) HClosed
    | HClosed => c
    end.
(** nchan.c:320-337 *)
Definition chan_write_failed (c : chan) : chan :=
  if is_closed (p_o (c_p c)) then c
  else
    let c := chan_shutdown_write c in
    let c := if f_session (c_f c) then chan_send_eow2 c else c in
    set_o c HClosed.
(** nchan.c:345-395 *)
Definition chan_is_dead (c : chan) (do_send : bool) : chan * bool :=
  match p_ty (c_p c) with
  | TZombie => (c, true)
  | _ =>
    if negb (is_closed (p_i (c_p c)) && is_closed (p_o (c_p c))) then (c, false)
    else if f_exteof (c_f c) && is_write (f_use (c_f c)) && f_efd (c_f c) && negb (empty (b_ext (c_b c))) then (c, false)
    else if f_local (c_f c) then (c, true)
    else if negb (p_cs (c_p c)) && negb do_send && p_cr (c_p c) then (c, true)
    else
      let c := if negb (p_cs (c_p c)) && do_send then chan_send_close2 c else c in
      (c, p_cs (c_p c) && p_cr (c_p c))
  end.

(** ** channels.c *)
(** channels.c:2574-2594 (channel_garbage_collect); [detaches] says whether the
    registered callback detaches itself. *)
Definition channel_gc (c : chan) (detaches : bool) : chan :=
  let finish c := let '(c, dead) := chan_is_dead c true in if dead then set_freed c else c in
  if f_detach (c_f c) then
    let '(c, dead) := chan_is_dead c (f_dclose (c_f c)) in
    if negb dead then c
    else if detaches then finish (set_detach c false false) else c
  else finish c.

(** channels.c:1375-1399 (channel_force_close); the detach callback is the
    separate event [EvDetach]. *)
Definition channel_force_close (c : chan) (abandon : bool) : chan :=
  let c := if is_open (p_i (c_p c)) then chan_read_failed c else c in
  let c := if is_drain (p_i (c_p c)) then chan_ibuf_empty (set_in c []) else c in
  let c := if is_closed (p_o (c_p c)) then c else chan_write_failed (set_out c []) in
  let c := set_efd c false (f_use (c_f c)) in
  if abandon then set_ty c TAbandoned else c.

(** Results of read(2) and write(2) chosen by the environment. *)
Inductive rres := RdBytes (d : list Z) | RdAgain | RdFail.
Inductive wres := WrBytes (n : Z) | WrAgain | WrFail.

(** channels.h:262 *)
Definition CHANNEL_MAX_READ : Z := 32768.
(** channels.h:259-260 *)
Definition CHAN_RBUF : Z := 16384.
(** sshbuf.h:30 *)
Definition SSHBUF_SIZE_MAX : Z := 134217728.

Definition forced (c : chan) : bool :=
  f_tty (c_f c) && f_dclose (c_f c) && negb (is_closed (p_i (c_p c))).

(** channels.c:1266-1270 (the wish to read, channel_pre_open) and 2106-2189
    (channel_handle_rfd).  The buffer's own limit only shortens the read. *)
Definition channel_handle_rfd (c : chan) (r : rres) : chan :=
  let have := zlen (b_in (c_b c)) in let rw := w_rw (c_w c) in
  if negb (forced c) && negb (is_open (p_i (c_p c)) && (0 <? rw) && (have <? rw)) then c
  else if rw <=? have then c
  else
    let maxlen := Z.min CHANNEL_MAX_READ (rw - have) in
    match r with
    | RdBytes d => let d := ztake maxlen d in note_read (set_in c (b_in (c_b c) ++ d)) d
    | RdAgain => c
    | RdFail => chan_read_failed c
    end.

(** channels.c:1271-1274 and 2191-2280 (channel_handle_wfd). *)
Definition channel_handle_wfd (c : chan) (r : wres) : chan :=
  if is_closed (p_o (c_p c)) || empty (b_out (c_b c)) then c
  else match r with
  | WrAgain => c
  | WrFail => chan_write_failed c
  | WrBytes n =>
    if n <=? 0 then chan_write_failed c
    else
      let n := Z.min n (zlen (b_out (c_b c))) in
      let w := c_w c in
      let c := note_written c (ztake n (b_out (c_b c))) in
      let c := set_out c (zdrop n (b_out (c_b c))) in
      set_local c (w_lw w) (w_exc w) (w_lmax w) (u32 (w_cons w + n))
  end.

(** channels.c:1284-1296 and 2282-2309 (channel_handle_efd_write). *)
Definition channel_handle_efd_write (c : chan) (r : wres) : chan :=
  if negb (f_efd (c_f c)) || negb (is_write (f_use (c_f c))) || empty (b_ext (c_b c)) ||
     (is_closed (p_i (c_p c)) && is_closed (p_o (c_p c))) then c
  else match r with
  | WrAgain => c
  | WrFail => set_efd c false (f_use (c_f c))
  | WrBytes n =>
    if n <=? 0 then set_efd c false (f_use (c_f c))
    else
      let n := Z.min n (zlen (b_ext (c_b c))) in
      let w := c_w c in
      let c := note_ewritten c (ztake n (b_ext (c_b c))) in
      let c := set_ext c (zdrop n (b_ext (c_b c))) in
      set_local c (w_lw w) (w_exc w) (w_lmax w) (u32 (w_cons w + n))
  end.

(** channels.c:1284-1296 and 2311-2339 (channel_handle_efd_read).  The limit of
    the buffer (128 MB, fatal) is left out. *)
Definition channel_handle_efd_read (c : chan) (r : rres) : chan :=
  if negb (f_efd (c_f c)) || is_write (f_use (c_f c)) then c
  else if negb (forced c) &&
     negb (negb (is_closed (p_i (c_p c)) && is_closed (p_o (c_p c))) && negb (p_es (c_p c)) &&
           (zlen (b_ext (c_b c)) <? w_rw (c_w c))) then c
  else match r with
  | RdAgain => c
  | RdFail => set_efd c false (f_use (c_f c))
  | RdBytes d =>
    let d := ztake CHAN_RBUF d in
    if is_read (f_use (c_f c)) then note_eread (set_ext c (b_ext (c_b c) ++ d)) d else c
  end.

(** channels.c:2358-2384 (channel_check_window) *)
Definition channel_check_window (c : chan) : chan :=
  let w := c_w c in
  if ty_open (p_ty (c_p c)) && negb (p_cs (c_p c) || p_cr (c_p c)) &&
     ((u32 (w_lpk w * 3) <? u32 (w_lmax w - w_lw w)) || (w_lw w <? w_lmax w / 2)) && (0 <? w_cons w)
  then set_local (send c (MAdjust (w_cons w))) (u32 (w_lw w + w_cons w)) (w_exc w) (w_lmax w) 0
  else c.

(** channels.c:1271-1283, the part of channel_pre_open that acts. *)
Definition channel_pre_open (c : chan) : chan :=
  if is_drain (p_o (c_p c)) && empty (b_out (c_b c)) && negb (efd_output_active c) then chan_obuf_empty c else c.

(** channels.c:2949-3018 (channel_output_poll_input_open) *)
Definition channel_output_poll_input_open (c : chan) : chan :=
  if empty (b_in (c_b c)) then
    if is_drain (p_i (c_p c)) && negb (efd_input_active c) then chan_ibuf_empty c else c
  else
    let w := c_w c in
    let len := Z.min (Z.min (zlen (b_in (c_b c))) (w_rw w)) (w_rmax w) in
    if len =? 0 then c
    else
      let d := ztake len (b_in (c_b c)) in
      set_rw (set_in (send c (MData d)) (zdrop len (b_in (c_b c)))) (u32 (w_rw w - len)).
(** channels.c:3023-3053 (channel_output_poll_extended_read);
    SSH2_EXTENDED_DATA_STDERR is 1. *)
Definition channel_output_poll_extended_read (c : chan) : chan :=
  let w := c_w c in
  let len := Z.min (Z.min (zlen (b_ext (c_b c))) (w_rw w)) (w_rmax w) in
  if len =? 0 then c
  else
    let d := ztake len (b_ext (c_b c)) in
    set_rw (set_ext (send c (MExt 1 d)) (zdrop len (b_ext (c_b c)))) (u32 (w_rw w - len)).
(** channels.c:3059-3097 (channel_output_poll), one channel *)
Definition channel_output_poll (c : chan) : chan :=
  if negb (ty_open (p_ty (c_p c))) then c
  else if p_cs (c_p c) || p_cr (c_p c) then c
  else
    let c := if is_closed (p_i (c_p c)) then c else channel_output_poll_input_open c in
    if negb (p_es (c_p c)) && is_read (f_use (c_f c)) then channel_output_poll_extended_read c else c.

(** channels.c:3402-3467 (channel_input_data); None: the connection is dropped. *)
Definition channel_input_data (c : chan) (d : list Z) : option chan :=
  if negb (ty_open (p_ty (c_p c))) then Some c
  else
    let w := c_w c in let n := zlen d in
    if negb (is_open (p_o (c_p c))) then
      Some (set_local c (u32 (w_lw w - n)) (w_exc w) (w_lmax w) (u32 (w_cons w + n)))
    else if w_lpk w <? n then Some c
    else
      let put c := if SSHBUF_SIZE_MAX <? zlen (b_out (c_b c)) + n then None else Some (set_out c (b_out (c_b c) ++ d)) in
      if w_lw w <? n then
        let exc := u32 (w_exc w + (n - w_lw w)) in
        if w_lmax w / 10 <? exc then None
        else put (set_local c 0 exc (w_lmax w) (w_cons w))
      else put (set_local c (u32 (w_lw w - n)) 0 (w_lmax w) (w_cons w)).

(** channels.c:3470-3521 (channel_input_extended_data) *)
Definition channel_input_extended_data (c : chan) (code : Z) (d : list Z) : option chan :=
  if negb (ty_open (p_ty (c_p c))) then Some c
  else if p_er (c_p c) && negb (f_exteof (c_f c)) then None
  else if negb (f_efd (c_f c)) || negb (is_write (f_use (c_f c))) || negb (code =? 1) then Some c
  else
    let w := c_w c in let n := zlen d in
    if w_lw w <? n then Some c
    else
      let c1 := if SSHBUF_SIZE_MAX <? zlen (b_ext (c_b c)) + n then c else set_ext c (b_ext (c_b c) ++ d) in
      Some (set_local c1 (u32 (w_lw w - n)) (w_exc w) (w_lmax w) (w_cons w)).

(** channels.c:3523-3546 (channel_input_ieof) *)
Definition channel_input_ieof (c : chan) : chan :=
  let c := chan_rcvd_ieof c in
  if f_fdrain (c_f c) && is_open (p_i (c_p c)) then
    let c := set_i c HDrain in
    if empty (b_in (c_b c)) then chan_ibuf_empty c else c
  else c.

(** channels.c:3656-3684 (channel_input_window_adjust) *)
Definition channel_input_window_adjust (c : chan) (n : Z) : option chan :=
  let rw := w_rw (c_w c) in
  let nrw := u32 (rw + n) in
  if nrw <? rw then None else Some (set_rw c nrw).

(** channels.c:1225-1247 (channel_set_fds): a larval session gets its
    descriptors and its window.  Only called while the session is attached
    (session.c, serverloop.c:581). *)
Definition channel_set_fds (c : chan) (efd : bool) (u : usage) (tty : bool) (win : Z) : chan :=
  if ty_larval (p_ty (c_p c)) && f_detach (c_f c) && negb (f_dclose (c_f c)) then
    let c := set_tty (set_efd (set_ty c TOpen) efd u) tty in
    let c := set_local c win (w_exc (c_w c)) win (w_cons (c_w c)) in
    send c (MAdjust win)
  else c.

(** A message from the peer.  A released channel is unknown: anything but a
    window adjust drops the connection (channels.c:3389-3400, 3667-3670). *)
Definition recv (c : chan) (m : wmsg) : option chan :=
  if g_freed (c_g c) then match m with MAdjust _ => Some c | _ => None end
  else match m with
  | MData d => channel_input_data c d
  | MExt code d => channel_input_extended_data c code d
  | MEof => Some (channel_input_ieof c)
  | MClose => Some (chan_rcvd_oclose c)
  | MAdjust n => channel_input_window_adjust c n
  | MEow => Some (chan_rcvd_eow c)
  end.

(** Everything that can happen to a channel. *)
Inductive ev :=
| EvRead (r : rres) | EvWrite (r : wres) | EvExtWrite (r : wres) | EvExtRead (r : rres)  (* channel_post_open *)
| EvWindow                       (* channel_check_window *)
| EvPre | EvPoll                 (* channel_pre_open, channel_output_poll *)
| EvGc (detaches : bool)
| EvForceClose (abandon : bool)
| EvFailRead | EvFailWrite       (* session.c:2415, mux.c:232-234, clientloop.c:871 *)
| EvAttach (do_close : bool) | EvDetach       (* channel_register_cleanup, channel_cancel_cleanup *)
| EvSetFds (efd : bool) (u : usage) (tty : bool) (win : Z)
| EvRecv (m : wmsg).

Definition when_open (c : chan) (c' : chan) : chan := if ty_open (p_ty (c_p c)) then c' else c.
Definition step (c : chan) (e : ev) : option chan :=
  match e with
  | EvRecv m => recv c m
  | _ =>
    if g_freed (c_g c) then Some c
    else Some match e with
    | EvRead r => when_open c (channel_handle_rfd c r)
    | EvWrite r => when_open c (channel_handle_wfd c r)
    | EvExtWrite r => when_open c (channel_handle_efd_write c r)
    | EvExtRead r => when_open c (channel_handle_efd_read c r)
    | EvWindow => channel_check_window c
    | EvPre => when_open c (channel_pre_open c)
    | EvPoll => channel_output_poll c
    | EvGc d => channel_gc c d
    | EvForceClose a => when_open c (channel_force_close c a)
    | EvFailRead => when_open c (chan_read_failed c)
    | EvFailWrite => when_open c (chan_write_failed c)
    | EvAttach dc => when_open c (set_detach c true dc)
    | EvDetach => set_detach c false false
    | EvSetFds efd u tty win => channel_set_fds c efd u tty win
    | EvRecv _ => c
    end
  end.

Fixpoint run (c : chan) (es : list ev) : option chan :=
  match es with
  | [] => Some c
  | e :: r => match step c e with Some c' => run c' r | None => None end
  end.

(** channel_new (channels.c:486-541) with an established remote end: an open
    channel, or the larval session of serverloop.c:570-581. *)
Definition open_chan (rw rmax lw lpk : Z) (f : conf) : chan :=
  mkC (mkP TOpen HOpen HOpen false false false false) (mkB [] [] []) (mkW rw rmax lw 0 lw 0 lpk) f (mkG [] [] [] [] [] false).
Definition larval_chan (rw rmax lpk : Z) (new exteof : bool) : chan :=
  mkC (mkP TLarval HOpen HOpen false false false false) (mkB [] [] []) (mkW rw rmax 0 0 0 0 lpk)
    (mkF false UIgnore false true false true false false new exteof) (mkG [] [] [] [] [] false).
