(** Model of the binary packet protocol (packet.c, with the calls it makes into
    mac.c and cipher.c).

    Modelled: padding, framing, MAC and cipher calls, sequence, packet, block and
    byte counters with their C widths, incremental reading, discarding after a
    MAC failure, key installation, rekey decisions, the queue of packets held
    back during a key exchange.

    Simplified: ciphers, MACs, compression and the random source are the
    parameters in [prims] (cipher_crypt is called with the same arguments as in
    C); buffer operations do not fail for lack of memory; an error return is a
    final outcome of the session, because every caller ends the connection on
    one, so the DISCONNECT message some error paths send first is not shown;
    the input hook, used only for fuzzing, is absent; logging is absent. *)
From Verif Require Import Base.

(** kex.h:120-126 (struct sshmac): the parts the packet code reads. *)
Record mac := mkMac {
  m_enabled : bool;
  m_etm : bool;
  m_len : Z;
  m_key : list Z
}.

(** kex.h:112-131 (struct sshenc, sshcomp, newkeys): the keys of one direction.
    [k_block], [k_authlen], [k_cbc], [k_none] are what cipher.c's table says about
    the cipher (cipher.c:86-112); [k_delayed] is comp.type == COMP_DELAYED. *)
Record keys := mkKeys {
  k_block : Z;
  k_authlen : Z;
  k_cbc : bool;
  k_none : bool;
  k_enc : list Z;
  k_mac : mac;
  k_delayed : bool;
  k_comp_on : bool
}.

Inductive err := EInternal | EInvalidArgument | EInvalidFormat | EIncomplete
  | EMacInvalid | EConnCorrupt | EProtocol | ENeedRekey | EDisconnected
  | ECipher | ECompress | EUndefined.

(** The primitives the packet code calls but this model does not open up.
    [p_crypt ctx seqnr src len aadlen authlen] is cipher_crypt (cipher.c:345-405):
    it yields the bytes written to dest and the context afterwards.
    [p_getlen] is cipher_get_length (cipher.c:408-419).  [p_mac keys seqnr data]
    is the digest mac_compute builds before truncation (mac.c:164-202). *)
Record prims := mkPrims {
  CS : Type;
  ZS : Type;
  p_init : keys -> bool -> option CS;
  p_crypt : CS -> Z -> list Z -> Z -> Z -> Z -> option (list Z * CS);
  p_getlen : CS -> Z -> list Z -> option Z;
  p_mac : keys -> Z -> list Z -> list Z;
  p_zinit : ZS;
  p_deflate : ZS -> list Z -> option (list Z * ZS);
  p_inflate : ZS -> list Z -> option (list Z * ZS);
  p_random : Z -> Z -> Z
}.

(** packet.c:106 *)
Definition PACKET_MAX_SIZE : Z := 262144.

(** ssh2.h:81-114: message numbers used below. *)
Definition MSG_DISCONNECT : Z := 1.
Definition MSG_IGNORE : Z := 2.
Definition MSG_UNIMPLEMENTED : Z := 3.
Definition MSG_DEBUG : Z := 4.
Definition MSG_SERVICE_REQUEST : Z := 5.
Definition MSG_SERVICE_ACCEPT : Z := 6.
Definition MSG_EXT_INFO : Z := 7.
Definition MSG_KEXINIT : Z := 20.
Definition MSG_NEWKEYS : Z := 21.
Definition MSG_USERAUTH_SUCCESS : Z := 52.
Definition MSG_PING : Z := 192.
Definition MSG_PONG : Z := 193.

(** defines.h:667 ROUNDUP *)
Definition roundup (x y : Z) : Z := ((x + (y - 1)) / y) * y.

(** packet.c:1163-1247, the padding computation of ssh_packet_send2_wrapped:
    [len] is the length to be encrypted, [extra] the u_char state->extra_pad;
    all of padlen, pad, tmp are u_char. *)
Definition pad_length (block len extra : Z) : option Z :=
  let padlen0 := u8 (block - len mod block) in
  let padlen := if padlen0 <? 4 then u8 (padlen0 + block) else padlen0 in
  if extra =? 0 then Some padlen
  else
    let extra' := u8 (roundup extra block) in
    if extra' <? extra then None
    else
      let tmp := u8 (u32 (len + padlen) mod extra') in
      if extra' <? tmp then None
      else
        let pad := u8 (extra' - tmp) in
        let padlen' := u8 (padlen + pad) in
        if padlen' <? padlen then None else Some padlen'.

(** packet.c:2865-2870 (sshpkt_add_padding): the u_char parameter. *)
Definition add_padding (pad : Z) : Z := u8 pad.

Section Packet.
Variable P : prims.

(** One direction of struct session_state (packet.c:127-225): keys, cipher
    context, packet_state, block limit, compression stream. *)
Record dir := mkDir {
  d_keys : option keys;
  d_ctx : CS P;
  d_seq : Z;
  d_packets : Z;
  d_blocks : Z;
  d_bytes : Z;
  d_maxb : Z;
  d_z : ZS P
}.

(** The sending half.  [t_log] is a ghost: one entry (keys, sequence number,
    plain packet) per packet handed to the cipher. *)
Record tx := mkTx {
  t_dir : dir;
  t_extra : Z;
  t_output : list Z;
  t_seed : Z;
  t_log : list (option keys * Z * list Z)
}.

(** The receiving half (input, incoming_packet, packlen, packet_discard). *)
Record rx := mkRx {
  r_dir : dir;
  r_input : list Z;
  r_incoming : list Z;
  r_packlen : Z;
  r_discard : Z
}.

(** packet.c:1177-1187 and 1577-1588: authlen, mac in use, EtM, block size, aadlen. *)
Definition d_authlen (d : dir) : Z := match d_keys d with Some k => k_authlen k | None => 0 end.
Definition d_mac (d : dir) : option (keys * mac) :=
  match d_keys d with
  | Some k => if (k_authlen k =? 0) && m_enabled (k_mac k) then Some (k, k_mac k) else None
  | None => None
  end.
Definition d_etm (d : dir) : bool := match d_mac d with Some (_, m) => m_etm m | None => false end.
Definition d_maclen (d : dir) : Z := match d_mac d with Some (_, m) => m_len m | None => 0 end.
Definition d_block (d : dir) : Z := match d_keys d with Some k => k_block k | None => 8 end.
Definition d_aadlen (d : dir) : Z := if d_etm d || negb (d_authlen d =? 0) then 4 else 0.
Definition d_comp (d : dir) : bool := match d_keys d with Some k => k_comp_on k | None => false end.

(** mac.c:164-202 (mac_compute): the digest cut to mac_len. *)
Definition mac_compute (k : keys) (m : mac) (seq : Z) (data : list Z) : list Z :=
  ztake (m_len m) (p_mac P k seq data).
(** mac.c:204-220 (mac_check): [true] when the tags agree. *)
Definition mac_check (k : keys) (m : mac) (seq : Z) (data theirs : list Z) : bool :=
  beqb (mac_compute k m seq data) (ztake (m_len m) theirs).

Definition random_bytes (seed n : Z) : list Z :=
  map (fun i => u8 (p_random P seed (Z.of_nat i))) (seq 0 (Z.to_nat n)).

(** packet.c:1304-1311 / 1712-1724: count one packet; [None] with the error when
    the sequence number wraps in the initial exchange or the packet count wraps. *)
Definition count_packet (initial norekey : bool) (d : dir) (len : Z) : dir * option err :=
  let seq' := u32 (d_seq d + 1) in
  if (seq' =? 0) && initial then
    (mkDir (d_keys d) (d_ctx d) seq' (d_packets d) (d_blocks d) (d_bytes d) (d_maxb d) (d_z d), Some EDisconnected)
  else
    let packets' := u32 (d_packets d + 1) in
    if (packets' =? 0) && negb norekey then
      (mkDir (d_keys d) (d_ctx d) seq' packets' (d_blocks d) (d_bytes d) (d_maxb d) (d_z d), Some ENeedRekey)
    else
      (mkDir (d_keys d) (d_ctx d) seq' packets' (u64 (d_blocks d + len / d_block d))
         (u64 (d_bytes d + len)) (d_maxb d) (d_z d), None).

Definition with_ctx (d : dir) (c : CS P) : dir :=
  mkDir (d_keys d) c (d_seq d) (d_packets d) (d_blocks d) (d_bytes d) (d_maxb d) (d_z d).
Definition with_z (d : dir) (z : ZS P) : dir :=
  mkDir (d_keys d) (d_ctx d) (d_seq d) (d_packets d) (d_blocks d) (d_bytes d) (d_maxb d) z.
Definition with_seq (d : dir) (n : Z) : dir :=
  mkDir (d_keys d) (d_ctx d) n (d_packets d) (d_blocks d) (d_bytes d) (d_maxb d) (d_z d).

(** packet.c:1194-1212: compress everything after the five header bytes. *)
Definition compress_packet (d : dir) (pkt : list Z) : option (list Z * dir) :=
  if d_comp d then
    match p_deflate P (d_z d) (zdrop 5 pkt) with
    | Some (c, z') => Some (repeat 0 5 ++ c, with_z d z')
    | None => None
    end
  else Some (pkt, d).

(** packet.c:1163-1317 (ssh_packet_send2_wrapped up to the counters).  [pkt] is
    outgoing_packet: five header bytes, the type, the payload. *)
Definition tx_emit (initial norekey : bool) (t : tx) (pkt : list Z) : tx * option err :=
  let d := t_dir t in
  let aadlen := d_aadlen d in
  match compress_packet d pkt with
  | None => (t, Some ECompress)
  | Some (pkt1, d1) =>
    let len0 := u32 (u32 (zlen pkt1) - aadlen) in
    match pad_length (d_block d) len0 (t_extra t) with
    | None => (mkTx d1 (t_extra t) (t_output t) (t_seed t) (t_log t), Some EInvalidArgument)
    | Some padlen =>
      let padding := match d_keys d with
                     | Some k => if k_none k then repeat 0 (Z.to_nat padlen) else random_bytes (t_seed t) padlen
                     | None => repeat 0 (Z.to_nat padlen)
                     end in
      let len := u32 (zlen pkt1 + padlen) in
      let frame := be_enc 4 (u32 (len - 4)) ++ [padlen] ++ zdrop 5 pkt1 ++ padding in
      match p_crypt P (d_ctx d) (d_seq d) frame (u32 (len - aadlen)) aadlen (d_authlen d) with
      | None => (mkTx d1 0 (t_output t) (t_seed t + 1) (t_log t), Some ECipher)
      | Some (out, ctx') =>
        let tag := match d_mac d with
                   | Some (k, m) => mac_compute k m (d_seq d) (if m_etm m then out else frame)
                   | None => []
                   end in
        let '(d2, e) := count_packet initial norekey (with_ctx d1 ctx') len in
        (mkTx d2 0 (t_output t ++ out ++ tag) (t_seed t + 1)
           (t_log t ++ [(d_keys d, d_seq d, frame)]), e)
      end
    end
  end.

(** What one call of the reader yields. *)
Inductive rx_out :=
| RxNone (r : rx)
| RxMsg (r : rx) (type : Z) (payload : list Z) (seq : Z)
| RxErr (e : err).

(** packet.c:405-430 (ssh_packet_start_discard); the dummy MAC computation of
    ssh_packet_stop_discard has no effect besides time. *)
Definition start_discard (r : rx) (discard : Z) : rx_out :=
  let d := r_dir r in
  let cbc := match d_keys d with Some k => k_cbc k | None => false end in
  if negb cbc || d_etm d then RxErr EMacInvalid
  else if u32 discard <=? zlen (r_input r) then RxErr EMacInvalid
  else RxNone (mkRx d (r_input r) (r_incoming r) (r_packlen r) (u32 (discard - zlen (r_input r)))).

(** packet.c:1728-1765: everything after the integrity check. *)
Definition unpack (d : dir) (incoming : list Z) : err + (dir * list Z) :=
  let padlen := nth 4 incoming 0 in
  if padlen <? 4 then inl EConnCorrupt
  else if zlen incoming <? 5 then inl EIncomplete
  else
    let rest := zdrop 5 incoming in
    if zlen rest <? padlen then inl EIncomplete
    else
      let body := ztake (zlen rest - padlen) rest in
      if d_comp d then
        match p_inflate P (d_z d) body with
        | Some (b, z') => inr (with_z d z', b)
        | None => inl ECompress
        end
      else inr (d, body).

(** packet.c:1712-1768: count, unpack, take the type byte, check it. *)
Definition deliver (initial norekey : bool) (d : dir) (input incoming : list Z) (packlen : Z) : rx_out :=
  let seq := d_seq d in
  match count_packet initial norekey d (u32 (packlen + 4)) with
  | (_, Some e) => RxErr e
  | (d2, None) =>
    match unpack d2 incoming with
    | inl e => RxErr e
    | inr (d3, []) => RxErr EIncomplete
    | inr (d3, type :: payload) =>
      if type <? 1 then RxErr EProtocol
      else RxMsg (mkRx d3 input payload packlen 0) type payload seq
    end
  end.

(** packet.c:1645-1711: the packet length is known. *)
Definition rx_body (initial norekey : bool) (r : rx) : rx_out :=
  let d := r_dir r in
  let block := d_block d in
  let aadlen := d_aadlen d in
  let authlen := d_authlen d in
  let maclen := d_maclen d in
  let need := if aadlen =? 0 then u32 (4 + r_packlen r - block) else r_packlen r in
  if negb (need mod block =? 0) then start_discard r (PACKET_MAX_SIZE - block)
  else if zlen (r_input r) <? u32 (u32 (u32 (aadlen + need) + authlen) + maclen) then RxNone r
  else
    let etm_ok := match d_mac d with
                  | Some (k, m) =>
                    if m_etm m then
                      mac_check k m (d_seq d) (ztake (u32 (aadlen + need)) (r_input r))
                        (zdrop (u32 (aadlen + need) + authlen) (r_input r))
                    else true
                  | None => true
                  end in
    if negb etm_ok then RxErr EMacInvalid
    else
      match p_crypt P (d_ctx d) (d_seq d) (ztake (u32 (aadlen + need) + authlen) (r_input r)) need aadlen authlen with
      | None => RxErr ECipher
      | Some (out, ctx') =>
        let incoming := r_incoming r ++ out in
        let input1 := zdrop (u32 (aadlen + need) + authlen) (r_input r) in
        let d1 := with_ctx d ctx' in
        match d_mac d with
        | Some (k, m) =>
          if negb (m_etm m) && negb (mac_check k m (d_seq d) incoming input1) then
            if PACKET_MAX_SIZE <? u32 (need + block) then RxErr EInternal
            else start_discard (mkRx d1 input1 incoming (r_packlen r) 0) (PACKET_MAX_SIZE - need - block)
          else deliver initial norekey d1 (zdrop (m_len m) input1) incoming (r_packlen r)
        | None => deliver initial norekey d1 input1 incoming (r_packlen r)
        end
      end.

(** packet.c:1558-1768 (ssh_packet_read_poll2 on a network connection, up to the
    type checks).  A bad length in the modes with a clear length field answers
    SSH_ERR_CONN_CORRUPT.  [sseq] is p_send.seqnr, which line 1621 passes to the
    cipher for the first block. *)
Definition rx_poll (initial norekey : bool) (sseq : Z) (r : rx) : rx_out :=
  if negb (r_discard r =? 0) then RxNone r
  else
    let d := r_dir r in
    if r_packlen r =? 0 then
      if negb (d_aadlen d =? 0) then
        match p_getlen P (d_ctx d) (d_seq d) (r_input r) with
        | None => RxNone r
        | Some n =>
          if (n <? 5) || (PACKET_MAX_SIZE <? n) then RxErr EConnCorrupt
          else rx_body initial norekey (mkRx d (r_input r) [] n 0)
        end
      else
        let block := d_block d in
        if zlen (r_input r) <? block then RxNone r
        else
          match p_crypt P (d_ctx d) sseq (ztake block (r_input r)) block 0 0 with
          | None => RxErr ECipher
          | Some (first, ctx') =>
            let n := be_dec (ztake 4 first) in
            let r1 := mkRx (with_ctx d ctx') (r_input r) first n 0 in
            if (n <? 5) || (PACKET_MAX_SIZE <? n) then start_discard r1 PACKET_MAX_SIZE
            else rx_body initial norekey (mkRx (with_ctx d ctx') (zdrop block (r_input r)) first n 0)
          end
    else rx_body initial norekey r.

(** packet.c:1896-1916 (ssh_packet_process_incoming) *)
Definition rx_feed (r : rx) (chunk : list Z) : err + rx :=
  if negb (r_discard r =? 0) then
    if r_discard r <=? zlen chunk then inl EMacInvalid
    else inr (mkRx (r_dir r) (r_input r) (r_incoming r) (r_packlen r) (u32 (r_discard r - zlen chunk)))
  else inr (mkRx (r_dir r) (r_input r ++ chunk) (r_incoming r) (r_packlen r) 0).

(** packet.c:1775-1776: after a delivery the reader is ready for the next length. *)
Definition rx_ready (r : rx) : rx := mkRx (r_dir r) (r_input r) (r_incoming r) 0 (r_discard r).

End Packet.
