(** Model of the sending side of a connection across key exchanges: installation
    of keys, rekey decisions, the queue of packets held back, hand-over of the
    connection to another process (packet.c, kex.c).

    Simplified: packets are received as events carrying their type and length,
    since only their effect on counters and exchange state matters here (their
    bytes are the subject of PacketModel.v); the KEXINIT payload is a fixed byte
    string (the code redraws its cookie); the messages of the exchange method
    between KEXINIT and NEWKEYS are ordinary send events; the outcome of the
    negotiation, that is the new keys and whether strict mode was agreed, comes
    with the events; any error ends the session. *)
From Verif Require Import Base PacketModel.

(** Which key exchange message the dispatch table (kex.c) accepts next: KEXINIT
    (kex_input_newkeys, kex.c:533), messages of the method (kex_input_kexinit,
    kex.c:625), or NEWKEYS (kex_send_newkeys, kex.c:402). *)
Inductive stage := AwaitKexinit | Method | AwaitNewkeys.

(** kex.h:134-190 (struct kex): done, flags KEX_INITIAL and KEX_INIT_SENT,
    kex_strict, newkeys[MODE_OUT] and newkeys[MODE_IN]. *)
Record kexst := mkX {
  x_done : bool;
  x_initial : bool;
  x_sent : bool;
  x_strict : bool;
  x_stage : stage;
  x_out : option keys;
  x_in : option keys
}.

Section Flow.
Variable P : prims.

(** packet.c:127-225 (struct session_state) and the kex state.  [s_queue] holds
    type and payload of each held packet (packet.c:114-118, struct packet).
    [s_wire] is a ghost: type and payload of each packet handed to the cipher. *)
Record st := mkSt {
  s_tx : tx P;
  s_rd : dir P;
  s_x : kexst;
  s_rekeying : bool;
  s_queue : list (Z * list Z);
  s_auth : bool;
  s_server : bool;
  s_norekey : bool;
  s_limit : Z;
  s_interval : Z;
  s_rtime : Z;
  s_now : Z;
  s_my : list Z;
  s_wire : list (Z * list Z)
}.

Definition with_tx (s : st) (t : tx P) : st :=
  mkSt t (s_rd s) (s_x s) (s_rekeying s) (s_queue s) (s_auth s) (s_server s) (s_norekey s)
    (s_limit s) (s_interval s) (s_rtime s) (s_now s) (s_my s) (s_wire s).
Definition with_rd (s : st) (d : dir P) : st :=
  mkSt (s_tx s) d (s_x s) (s_rekeying s) (s_queue s) (s_auth s) (s_server s) (s_norekey s)
    (s_limit s) (s_interval s) (s_rtime s) (s_now s) (s_my s) (s_wire s).
Definition with_x (s : st) (x : kexst) : st :=
  mkSt (s_tx s) (s_rd s) x (s_rekeying s) (s_queue s) (s_auth s) (s_server s) (s_norekey s)
    (s_limit s) (s_interval s) (s_rtime s) (s_now s) (s_my s) (s_wire s).
Definition with_rekeying (s : st) (b : bool) : st :=
  mkSt (s_tx s) (s_rd s) (s_x s) b (s_queue s) (s_auth s) (s_server s) (s_norekey s)
    (s_limit s) (s_interval s) (s_rtime s) (s_now s) (s_my s) (s_wire s).
Definition with_queue (s : st) (q : list (Z * list Z)) : st :=
  mkSt (s_tx s) (s_rd s) (s_x s) (s_rekeying s) q (s_auth s) (s_server s) (s_norekey s)
    (s_limit s) (s_interval s) (s_rtime s) (s_now s) (s_my s) (s_wire s).
Definition with_auth (s : st) (b : bool) : st :=
  mkSt (s_tx s) (s_rd s) (s_x s) (s_rekeying s) (s_queue s) b (s_server s) (s_norekey s)
    (s_limit s) (s_interval s) (s_rtime s) (s_now s) (s_my s) (s_wire s).
Definition with_time (s : st) (rt now : Z) : st :=
  mkSt (s_tx s) (s_rd s) (s_x s) (s_rekeying s) (s_queue s) (s_auth s) (s_server s) (s_norekey s)
    (s_limit s) (s_interval s) rt now (s_my s) (s_wire s).
Definition with_wire (s : st) (w : list (Z * list Z)) : st :=
  mkSt (s_tx s) (s_rd s) (s_x s) (s_rekeying s) (s_queue s) (s_auth s) (s_server s) (s_norekey s)
    (s_limit s) (s_interval s) (s_rtime s) (s_now s) (s_my s) w.
Definition tx_dir (t : tx P) (d : dir P) : tx P := mkTx P d (t_extra P t) (t_output P t) (t_seed P t) (t_log P t).

(** packet.c:281-287 (ssh_packet_is_rekeying) *)
Definition is_rekeying (s : st) : bool := s_rekeying s || negb (x_done (s_x s)).

(** packet.c:1032-1043: the block limit of a new key. *)
Definition max_blocks (block limit : Z) : Z :=
  let m := if 16 <=? block then u64 (Z.shiftl 1 (block * 2)) else 1073741824 / block in
  if limit =? 0 then m else Z.min m (limit / block).

(** packet.c:1012-1025 and 1127-1146: keys with delayed compression on. *)
Definition comp_started (k : keys) : keys :=
  mkKeys (k_block k) (k_authlen k) (k_cbc k) (k_none k) (k_enc k) (k_mac k) (k_delayed k) true.
(** packet.c:1000: mac->enabled = 1. *)
Definition mac_started (k : keys) : keys :=
  mkKeys (k_block k) (k_authlen k) (k_cbc k) (k_none k) (k_enc k)
    (mkMac true (m_etm (k_mac k)) (m_len (k_mac k)) (m_key (k_mac k))) (k_delayed k) (k_comp_on k).

(** packet.c:953-1047 (ssh_set_newkeys) on the data of one direction; [enc] is
    true for MODE_OUT. *)
Definition install (s : st) (enc : bool) (d : dir P) (nk : option keys) : option (dir P) :=
  match nk with
  | None => None
  | Some k0 =>
    let k := mac_started k0 in
    match p_init P k enc with
    | None => None
    | Some c =>
      let start := k_delayed k && s_auth s && negb (k_comp_on k) in
      Some (mkDir P (Some (if start then comp_started k else k)) c (d_seq P d) 0 0 (d_bytes P d)
              (max_blocks (k_block k) (s_limit s)) (if start then p_zinit P else d_z P d))
    end
  end.
Definition set_newkeys_out (s : st) : option st :=
  match install s true (t_dir P (s_tx s)) (x_out (s_x s)) with
  | None => None
  | Some d =>
    let x := s_x s in
    Some (with_x (with_tx s (tx_dir (s_tx s) d))
            (mkX (x_done x) (x_initial x) (x_sent x) (x_strict x) (x_stage x) None (x_in x)))
  end.
Definition set_newkeys_in (s : st) : option st :=
  match install s false (s_rd s) (x_in (s_x s)) with
  | None => None
  | Some d =>
    let x := s_x s in
    Some (with_x (with_rd s d)
            (mkX (x_done x) (x_initial x) (x_sent x) (x_strict x) (x_stage x) (x_out x) None))
  end.

(** packet.c:1050-1094 (ssh_packet_need_rekeying).  The keys of the sending
    direction exist whenever the last lines are reached. *)
Definition MAX_PACKETS : Z := 2147483648.
Definition need_rekeying (s : st) (len : Z) : bool :=
  let out := t_dir P (s_tx s) in
  let inp := s_rd s in
  if negb (s_auth s) then false
  else if is_rekeying s then false
  else if s_norekey s then false
  else if (d_packets P out =? 0) && (d_packets P inp =? 0) then false
  else if negb (s_interval s =? 0) && (s_rtime s + s_interval s <=? s_now s) then true
  else if (MAX_PACKETS <? d_packets P out) || (MAX_PACKETS <? d_packets P inp) then true
  else
    let out_blocks := u32 (roundup len (d_block P out)) in
    (negb (d_maxb P out =? 0) && (d_maxb P out <? u64 (d_blocks P out + out_blocks))) ||
    (negb (d_maxb P inp =? 0) && (d_maxb P inp <? d_blocks P inp)).

(** packet.c:1110-1147 (ssh_packet_enable_delayed_compress), one direction *)
Definition delayed_dir (d : dir P) : dir P :=
  match d_keys P d with
  | Some k =>
    if negb (k_comp_on k) && k_delayed k then
      mkDir P (Some (comp_started k)) (d_ctx P d) (d_seq P d) (d_packets P d) (d_blocks P d) (d_bytes P d) (d_maxb P d) (p_zinit P)
    else d
  | None => d
  end.
Definition enable_delayed_compress (s : st) : st :=
  with_auth (with_rd (with_tx s (tx_dir (s_tx s) (delayed_dir (t_dir P (s_tx s))))) (delayed_dir (s_rd s))) true.

(** packet.c:1163-1326 (ssh_packet_send2_wrapped) *)
Definition send_wrapped (s : st) (ty : Z) (pl : list Z) : st * option err :=
  let '(t, e) := tx_emit P (x_initial (s_x s)) (s_norekey s) (s_tx s) (repeat 0 5 ++ [ty] ++ pl) in
  let sent := negb (Nat.eqb (length (t_log P t)) (length (t_log P (s_tx s)))) in
  let s1 := with_wire (with_tx s t) (if sent then s_wire s ++ [(ty, pl)] else s_wire s) in
  match e with
  | Some e => (s1, Some e)
  | None =>
    let s2 := if (ty =? MSG_NEWKEYS) && x_strict (s_x s1) then with_tx s1 (tx_dir t (with_seq P (t_dir P t) 0)) else s1 in
    if ty =? MSG_NEWKEYS then
      match set_newkeys_out s2 with None => (s2, Some EInternal) | Some s3 => (s3, None) end
    else if (ty =? MSG_USERAUTH_SUCCESS) && s_server s2 then (enable_delayed_compress s2, None)
    else (s2, None)
  end.

(** packet.c:1330-1339 (ssh_packet_type_is_kex) *)
Definition type_is_kex (ty : Z) : bool :=
  (1 <=? ty) && (ty <=? 49) && negb (ty =? MSG_SERVICE_REQUEST) && negb (ty =? MSG_SERVICE_ACCEPT) && negb (ty =? MSG_EXT_INFO).

(** kex.c:571-607 (kex_send_kexinit), with the call of ssh_packet_send2 for a
    KEXINIT packet written out: packet.c:1352-1388, where neither the queue nor
    the NEWKEYS branch applies. *)
Definition send_kexinit (s : st) : st * option err :=
  let x := s_x s in
  if x_sent x then (s, None)
  else
    let s1 := with_x s (mkX false (x_initial x) (x_sent x) (x_strict x) (x_stage x) (x_out x) (x_in x)) in
    let '(s2, e) := send_wrapped (with_rekeying s1 true) MSG_KEXINIT (s_my s) in
    match e with
    | Some e => (s2, Some e)
    | None =>
      let x2 := s_x s2 in
      (with_x s2 (mkX (x_done x2) (x_initial x2) true (x_strict x2) (x_stage x2) (x_out x2) (x_in x2)), None)
    end.

(** kex.c:780-793 (kex_start_rekex) *)
Definition start_rekex (s : st) : st * option err :=
  let x := s_x s in
  if negb (x_done x) then (s, Some EInternal)
  else send_kexinit (with_x s (mkX false (x_initial x) (x_sent x) (x_strict x) (x_stage x) (x_out x) (x_in x))).

(** packet.c:1395-1418: the loop sending the queue after NEWKEYS; [q] is the queue. *)
Fixpoint flush (s : st) (q : list (Z * list Z)) : st * option err :=
  match q with
  | [] => (with_queue s [], None)
  | (ty, pl) :: q' =>
    if need_rekeying s (6 + zlen pl) then start_rekex (with_queue s q)
    else
      match send_wrapped (with_queue s q') ty pl with
      | (s1, Some e) => (s1, Some e)
      | (s1, None) => flush s1 q'
      end
  end.

(** packet.c:1342-1421 (ssh_packet_send2); KEXINIT goes through [send_kexinit]. *)
Definition send2 (s : st) (ty : Z) (pl : list Z) : st * option err :=
  let need := negb (type_is_kex ty) && need_rekeying s (6 + zlen pl) in
  if (need || s_rekeying s) && negb (type_is_kex ty) then
    let s1 := with_queue s (s_queue s ++ [(ty, pl)]) in
    if need then start_rekex s1 else (s1, None)
  else
    match send_wrapped s ty pl with
    | (s1, Some e) => (s1, Some e)
    | (s1, None) =>
      if ty =? MSG_NEWKEYS then
        let s2 := with_time (with_rekeying s1 false) (s_now s1) (s_now s1) in flush s2 (s_queue s2)
      else (s1, None)
    end.

(** packet.c:1096-1103 (ssh_packet_check_rekey) *)
Definition check_rekey (s : st) : st * option err :=
  if need_rekeying s 0 then start_rekex s else (s, None).

(** kex.c:392-408 (kex_send_newkeys, called by the method with keys derived by
    kex_derive_keys, kex.c:1176-1219); EXT_INFO is an ordinary send. *)
Definition send_newkeys (s : st) (out inp : keys) : st * option err :=
  match x_stage (s_x s) with
  | Method =>
    let x := s_x s in
    let s1 := with_x s (mkX (x_done x) (x_initial x) (x_sent x) (x_strict x) (x_stage x) (Some out) (Some inp)) in
    match send2 s1 MSG_NEWKEYS [] with
    | (s2, Some e) => (s2, Some e)
    | (s2, None) =>
      let x2 := s_x s2 in
      (with_x s2 (mkX (x_done x2) (x_initial x2) (x_sent x2) (x_strict x2) AwaitNewkeys (x_out x2) (x_in x2)), None)
    end
  | _ => (s, None)
  end.

(** packet.c:1712-1791: counters and rekey check for a received packet *)
Definition receive_packet (s : st) (ty len : Z) : st * option err :=
  match count_packet P (x_initial (s_x s)) (s_norekey s) (s_rd s) len with
  | (d, Some e) => (with_rd s d, Some e)
  | (d, None) =>
    let s1 := with_rd s d in
    let s2 := if (ty =? MSG_USERAUTH_SUCCESS) && negb (s_server s1) then enable_delayed_compress s1 else s1 in
    let s3 := if (ty =? MSG_NEWKEYS) && x_strict (s_x s2) then with_rd s2 (with_seq P (s_rd s2) 0) else s2 in
    check_rekey s3
  end.

(** kex.c:235-251 (kex_protocol_error) *)
Definition protocol_error (s : st) (seq : Z) : st * option err :=
  if x_initial (s_x s) && x_strict (s_x s) then (s, Some EDisconnected)
  else send2 s MSG_UNIMPLEMENTED (be_enc 4 seq).

(** kex.c:610-700 (kex_input_kexinit): [strict] says whether the negotiation of
    the initial exchange enables strict mode (kex.c:952-970). *)
Definition input_kexinit (s : st) (seq : Z) (strict : bool) : st * option err :=
  match x_stage (s_x s) with
  | AwaitKexinit =>
    match send_kexinit s with
    | (s1, Some e) => (s1, Some e)
    | (s1, None) =>
      let x := s_x s1 in
      (with_x s1 (mkX (x_done x) (x_initial x) (x_sent x) (x_strict x || (x_initial x && strict)) Method (x_out x) (x_in x)), None)
    end
  | _ => protocol_error s seq
  end.

(** kex.c:523-569 (kex_input_newkeys) *)
Definition input_newkeys (s : st) (seq : Z) : st * option err :=
  match x_stage (s_x s) with
  | AwaitNewkeys =>
    match set_newkeys_in s with
    | None => (s, Some EInternal)
    | Some s1 =>
      let x := s_x s1 in
      (with_x s1 (mkX true false false (x_strict x) AwaitKexinit (x_out x) (x_in x)), None)
    end
  | _ => protocol_error s seq
  end.

(** packet.c:2546-2594 (ssh_packet_set_state in the process that takes over after
    authentication, with what ssh_packet_get_state wrote): both directions are
    installed again from the saved keys and cipher state, sequence numbers and
    byte counts survive, packet and block counts do not. *)
Definition handed (s : st) (d : dir P) : dir P :=
  let fresh := mkDir P (d_keys P d) (d_ctx P d) (d_seq P d) 0 0 (d_bytes P d)
                 (max_blocks (d_block P d) (s_limit s)) (d_z P d) in
  delayed_dir fresh.
Definition handover (s : st) : st * option err :=
  match d_keys P (t_dir P (s_tx s)), d_keys P (s_rd s) with
  | Some _, Some _ =>
    let s1 := with_rd (with_tx s (tx_dir (s_tx s) (handed s (t_dir P (s_tx s))))) (handed s (s_rd s)) in
    (with_auth (with_time s1 (s_now s1) (s_now s1)) true, None)
  | _, _ => (s, Some EInternal)
  end.

(** What can happen to a connection.  [ESend] stands for every message the rest of
    the program sends; KEXINIT and NEWKEYS are sent only by kex.c:598 and
    kex.c:398.  [EKexinit] is the first KEXINIT, sent by kex_setup (kex.c:762-775).
    [EHandover] happens in the server between exchanges, once. *)
Inductive event :=
| EKexinit
| ESend (ty : Z) (pl : list Z)
| EPad (n : Z)
| ERekex
| ECheck
| ENewkeys (out inp : keys)
| ERecv (ty len : Z)
| ERecvKexinit (len : Z) (strict : bool)
| ERecvNewkeys (len : Z)
| ETick (dt : Z)
| EHandover.

Definition step (s : st) (e : event) : st * option err :=
  match e with
  | EKexinit => if x_initial (s_x s) then send_kexinit s else (s, None)
  | ESend ty pl =>
    if (ty =? MSG_KEXINIT) || (ty =? MSG_NEWKEYS) then (s, None) else send2 s ty pl
  | EPad n =>
    let t := s_tx s in (with_tx s (mkTx P (t_dir P t) (add_padding n) (t_output P t) (t_seed P t) (t_log P t)), None)
  | ERekex => if is_rekeying s then (s, None) else start_rekex s
  | ECheck => check_rekey s
  | ENewkeys o i => send_newkeys s o i
  | ERecv ty len =>
    if (ty =? MSG_KEXINIT) || (ty =? MSG_NEWKEYS) then (s, None) else receive_packet s ty len
  | ERecvKexinit len strict =>
    let seq := d_seq P (s_rd s) in
    match receive_packet s MSG_KEXINIT len with
    | (s1, Some e) => (s1, Some e)
    | (s1, None) => input_kexinit s1 seq strict
    end
  | ERecvNewkeys len =>
    let seq := d_seq P (s_rd s) in
    match receive_packet s MSG_NEWKEYS len with
    | (s1, Some e) => (s1, Some e)
    | (s1, None) => input_newkeys s1 seq
    end
  | ETick dt => (with_time s (s_rtime s) (s_now s + Z.max 0 dt), None)
  | EHandover => if is_rekeying s then (s, None) else handover s
  end.

(** A history; an error ends the session. *)
Fixpoint run (s : st) (es : list event) : st * option err :=
  match es with
  | [] => (s, None)
  | e :: r => match step s e with (s1, None) => run s1 r | (s1, Some x) => (s1, Some x) end
  end.

(** packet.c:227-279 (ssh_packet_init state), kex.c:747-760 (kex_ready): a new
    connection; rekeying is set from the start (packet.c:256). *)
Definition start (server norekey : bool) (limit interval : Z) (my : list Z) (c : CS P) : st :=
  let d := mkDir P None c 0 0 0 0 0 (p_zinit P) in
  mkSt (mkTx P d 0 [] 0 []) d (mkX false true false false AwaitKexinit None None) true [] false server norekey
    limit interval 0 0 my [].

End Flow.
