(** Which messages the receiving side lets pass during a key exchange: the
    implicit handling of transport messages (packet.c), the dispatch loop
    (dispatch.c) and the handlers the key exchange installs (kex.c, kexgen.c,
    kexgexc.c, kexgexs.c).

    Simplifications.  The contents of a message are summarised by what the
    handler concludes from them: whether it accepts them ([m_ok]; any error
    return is fatal in every caller) and, for KEXINIT, what the negotiation
    concludes ([m_strict], [m_ext], [m_wrong_guess], [m_gex]; the negotiation
    itself is in KexModel.v).  Decryption and the integrity check happen before
    (PacketModel.v). *)
From Verif Require Import Base.

(** ssh2.h:63-104 *)
Definition MSG_DISCONNECT : Z := 1.
Definition MSG_IGNORE : Z := 2.
Definition MSG_UNIMPLEMENTED : Z := 3.
Definition MSG_DEBUG : Z := 4.
Definition MSG_EXT_INFO : Z := 7.
Definition MSG_KEXINIT : Z := 20.
Definition MSG_NEWKEYS : Z := 21.
Definition MSG_KEX_ECDH_INIT : Z := 30.
Definition MSG_KEX_ECDH_REPLY : Z := 31.
Definition MSG_GEX_GROUP : Z := 31.
Definition MSG_GEX_INIT : Z := 32.
Definition MSG_GEX_REPLY : Z := 33.
Definition MSG_GEX_REQUEST : Z := 34.
Definition MSG_PING : Z := 192.
Definition MSG_PONG : Z := 193.
Definition TRANSPORT_MIN : Z := 1.
Definition TRANSPORT_MAX : Z := 49.
(** dispatch.h:30 *)
Definition DISPATCH_MAX : Z := 255.

Record msg := mkMsg {
  m_ty : Z;            (* message number *)
  m_ok : bool;         (* its handler accepts the contents *)
  m_strict : bool;     (* KEXINIT: strict key exchange agreed *)
  m_ext : bool;        (* KEXINIT: the peer announces extension negotiation *)
  m_wrong_guess : bool;(* KEXINIT: first_kex_follows set and the guess wrong *)
  m_gex : bool;        (* KEXINIT: a group exchange method was chosen *)
}.

(** The functions that can sit in the dispatch table. *)
Inductive handler := HNull | HProtErr | HKexinit | HMethod | HNewkeys | HExtInfo.

Record kx := mkKx {
  k_server : bool;
  k_table : Z -> handler;   (* ssh->dispatch *)
  k_strict : bool;          (* kex->kex_strict *)
  k_initial : bool;         (* kex->flags & KEX_INITIAL *)
  k_ext : bool;             (* kex->ext_info_c *)
  k_next : list Z;          (* messages the method still waits for *)
  k_skip : Z;               (* ssh->dispatch_skip_packets *)
  k_done : bool;            (* kex->done *)
  k_seq : Z;                (* p_read.seqnr *)
}.
Definition with_table (k : kx) (t : Z -> handler) : kx :=
  mkKx (k_server k) t (k_strict k) (k_initial k) (k_ext k) (k_next k) (k_skip k) (k_done k) (k_seq k).
Definition with_next (k : kx) (n : list Z) : kx :=
  mkKx (k_server k) (k_table k) (k_strict k) (k_initial k) (k_ext k) n (k_skip k) (k_done k) (k_seq k).
Definition with_skip (k : kx) (n : Z) : kx :=
  mkKx (k_server k) (k_table k) (k_strict k) (k_initial k) (k_ext k) (k_next k) n (k_done k) (k_seq k).
Definition with_kseq (k : kx) (n : Z) : kx :=
  mkKx (k_server k) (k_table k) (k_strict k) (k_initial k) (k_ext k) (k_next k) (k_skip k) (k_done k) n.
Definition with_conf (k : kx) (strict ext : bool) : kx :=
  mkKx (k_server k) (k_table k) strict (k_initial k) ext (k_next k) (k_skip k) (k_done k) (k_seq k).
Definition with_done (k : kx) : kx :=
  mkKx (k_server k) (k_table k) (k_strict k) false (k_ext k) (k_next k) (k_skip k) true (k_seq k).

(** ssh_dispatch_set, dispatch.c:61-65 *)
Definition set_handler (k : kx) (t : Z) (h : handler) : kx :=
  with_table k (fun i => if i =? t then h else k_table k i).
(** ssh_dispatch_range, dispatch.c:67-75 *)
Definition set_range (k : kx) (a b : Z) (h : handler) : kx :=
  with_table k (fun i => if (a <=? i) && (i <=? b) then h else k_table k i).
(** kex_reset_dispatch, kex.c:253-258 *)
Definition reset_dispatch (k : kx) : kx := set_range k TRANSPORT_MIN TRANSPORT_MAX HProtErr.

(** The messages each method waits for: kexgen.c:137 (client) and 270 (server),
    kexgexc.c:87,136 (client group exchange), kexgexs.c:64,120 (server group
    exchange). *)
Definition method_types (server gex : bool) : list Z :=
  if server then if gex then [MSG_GEX_REQUEST; MSG_GEX_INIT] else [MSG_KEX_ECDH_INIT]
  else if gex then [MSG_GEX_GROUP; MSG_GEX_REPLY] else [MSG_KEX_ECDH_REPLY].

(** A key-exchange context fresh from kex_new and kex_setup (kex.c:697-790):
    the table is zeroed, then kex_ready resets the transport range and installs
    the KEXINIT handler. *)
Definition fresh (server : bool) : kx :=
  set_handler (reset_dispatch
    (mkKx server (fun _ => HNull) false true false [] 0 false 0)) MSG_KEXINIT HKexinit.

(** kex_send_newkeys, kex.c:393-410 (the sending half is in FlowModel.v). *)
Definition send_newkeys (k : kx) : kx :=
  set_handler (reset_dispatch k) MSG_NEWKEYS HNewkeys.

(** The start of a method (kex_gen_client, kex_gen_server, kexgex_client,
    kexgex_server) and the end of each of its steps: install the handler of the
    next message, or go on to NEWKEYS. *)
Definition method_go (k : kx) (todo : list Z) : kx :=
  match todo with
  | [] => send_newkeys (with_next k [])
  | t :: r => set_handler (with_next k r) t HMethod
  end.

(** kex_input_kexinit, kex.c:610-695, with the parts of kex_choose_conf
    (kex.c:952-1056) that touch the receiving side.  None: connection over. *)
Definition input_kexinit (k : kx) (m : msg) (seq : Z) : option kx :=
  let k := set_handler k MSG_KEXINIT HProtErr in
  if negb (m_ok m) then None
  else
    let strict := if k_initial k then m_strict m else k_strict k in
    let ext := if k_initial k then m_ext m else k_ext k in
    let k := with_conf k strict ext in
    if k_initial k && strict && negb (seq =? 0) then None
    else
      let k := if m_wrong_guess m then with_skip k 1 else k in
      Some (method_go k (method_types (k_server k) (m_gex m))).

(** input_kex_gen_reply kexgen.c:142-254, input_kex_gen_init kexgen.c:275-372,
    input_kex_dh_gex_* kexgexc.c:92-, 141-; kexgexs.c:71-, 126-. *)
Definition input_method (k : kx) (m : msg) : option kx :=
  let k := set_handler k (m_ty m) HProtErr in
  if negb (m_ok m) then None else Some (method_go k (k_next k)).

(** kex_input_newkeys, kex.c:524-552 *)
Definition input_newkeys (k : kx) (m : msg) : option kx :=
  let k := if k_ext k && k_initial k then set_handler k MSG_EXT_INFO HExtInfo else k in
  let k := set_handler k MSG_NEWKEYS HProtErr in
  let k := set_handler k MSG_KEXINIT HKexinit in
  if negb (m_ok m) then None else Some (with_done k).

(** kex_protocol_error, kex.c:236-251: fatal only during a strict initial
    exchange, otherwise answered with UNIMPLEMENTED. *)
Definition protocol_error (k : kx) : option kx :=
  if k_initial k && k_strict k then None else Some k.

(** kex_input_ext_info, kex.c:476-522 *)
Definition input_ext_info (k : kx) (m : msg) : option kx :=
  let k := set_handler k MSG_EXT_INFO HProtErr in
  if negb (m_ok m) then None else Some k.

Definition call (h : handler) (k : kx) (m : msg) (seq : Z) : option kx :=
  match h with
  | HNull => None
  | HProtErr => protocol_error k
  | HKexinit => input_kexinit k m seq
  | HMethod => input_method k m
  | HNewkeys => input_newkeys k m
  | HExtInfo => input_ext_info k m
  end.

(** One round of ssh_dispatch_run, dispatch.c:93-125. *)
Definition dispatch (k : kx) (m : msg) (seq : Z) : option kx :=
  if (0 <? m_ty m) && (m_ty m <? DISPATCH_MAX) then
    match k_table k (m_ty m) with
    | HNull => None
    | h => if negb (k_skip k =? 0) then Some (with_skip k (k_skip k - 1))
           else call h k m seq
    end
  else None.

(** The messages ssh_packet_read_poll_seqnr handles itself, packet.c:1826-1886. *)
Definition implicit (t : Z) : bool :=
  (t =? MSG_IGNORE) || (t =? MSG_DEBUG) || (t =? MSG_UNIMPLEMENTED) ||
  (t =? MSG_PING) || (t =? MSG_PONG).

(** One authenticated packet taken in: the sequence number advances
    (packet.c:1710-1720), NEWKEYS restarts it under strict key exchange
    (packet.c:1780-1785), then packet.c:1796-1888 and the dispatch loop. *)
Definition receive (k : kx) (m : msg) : option kx :=
  let seq := k_seq k in
  let next := u32 (seq + 1) in
  if (next =? 0) && k_initial k then None
  else
    let k := with_kseq k (if (m_ty m =? MSG_NEWKEYS) && k_strict k then 0 else next) in
    if m_ty m =? MSG_DISCONNECT then None
    else if negb (k_initial k && k_strict k) && implicit (m_ty m) then
      if m_ok m then Some k else None
    else dispatch k m seq.

(** A history of received messages; None once the connection is over. *)
Fixpoint recv_all (k : kx) (l : list msg) : option kx :=
  match l with
  | [] => Some k
  | m :: r => match receive k m with Some k' => recv_all k' r | None => None end
  end.
