(** Vocabulary for the packet properties: what a well-formed packet is, what is
    asked of a cipher, and what it means to feed a byte stream to the reader. *)
From Verif Require Import Base PacketModel.

(** A plain packet (RFC 4253, section 6): length field, padding length, body,
    padding.  The length field counts what follows it; the part that the cipher
    treats as blocks, everything but [aad] leading bytes, is whole blocks. *)
Definition framed (block aad : Z) (body frame : list Z) : Prop :=
  exists padding,
    4 <= zlen padding <= 255 /\
    frame = be_enc 4 (1 + zlen body + zlen padding) ++ [zlen padding] ++ body ++ padding /\
    (zlen frame - aad) mod block = 0.

(** The body of the packet that carries [content] (type byte and payload): the
    content itself, or its compressed form once compression is on. *)
Definition body_for (P : prims) (d : dir P) (content body : list Z) (z' : ZS P) : Prop :=
  match d_keys P d with
  | Some k => if k_comp_on k then p_deflate P (d_z P d) content = Some (body, z') else body = content /\ z' = d_z P d
  | None => body = content /\ z' = d_z P d
  end.

(** The three framing modes and the unprotected one, read off the keys in use. *)
Definition aead (k : keys) : Prop := k_authlen k <> 0.
Definition etm (k : keys) : Prop := k_authlen k = 0 /\ m_enabled (k_mac k) = true /\ m_etm (k_mac k) = true.
Definition eam (k : keys) : Prop := k_authlen k = 0 /\ m_enabled (k_mac k) = true /\ m_etm (k_mac k) = false.
(** Number of leading bytes that are not part of the blocks. *)
Definition clear_bytes (ok : option keys) (aad : Z) : Prop :=
  match ok with
  | None => aad = 0
  | Some k => ((aead k \/ etm k) -> aad = 4) /\ (~ aead k -> ~ etm k -> aad = 0)
  end.

(** What is asked of a cipher for delivery: the receiver's context undoes the
    sender's, packet after packet; a cipher without a clear length field may be
    run on the first block and the remaining blocks separately.  [R] relates the
    two contexts. *)
Record inverse_cipher (P : prims) (block aad auth : Z) (R : CS P -> CS P -> Prop) : Prop := {
  ic_length : forall s seq src len out s',
    zlen src = aad + len -> len mod block = 0 ->
    p_crypt P s seq src len aad auth = Some (out, s') ->
    zlen out = aad + len + auth;
  ic_whole : aad <> 0 -> forall s r seq src len out s',
    R s r -> is_bytes src -> zlen src = aad + len -> len mod block = 0 ->
    p_crypt P s seq src len aad auth = Some (out, s') ->
    exists r', p_crypt P r seq out len aad auth = Some (src, r') /\ R s' r';
  ic_blocks : aad = 0 -> forall s r seq seq1 src len out s',
    R s r -> is_bytes src -> zlen src = len -> len mod block = 0 -> block <= len ->
    p_crypt P s seq src len 0 auth = Some (out, s') ->
    exists r1 r2,
      p_crypt P r seq1 (ztake block out) block 0 0 = Some (ztake block src, r1) /\
      p_crypt P r1 seq (zdrop block out) (len - block) 0 auth = Some (zdrop block src, r2) /\
      R s' r2;
  ic_getlen : aad <> 0 -> forall s r seq src len out s' tail,
    R s r -> is_bytes src -> zlen src = aad + len -> len mod block = 0 ->
    p_crypt P s seq src len aad auth = Some (out, s') ->
    p_getlen P r seq (ztake 4 out ++ tail) = Some (be_dec (ztake 4 src));
  ic_getlen_short : forall r seq l, zlen l < 4 -> p_getlen P r seq l = None
}.

(** Decompression undoes compression, packet after packet. *)
Definition inverse_comp (P : prims) (Q : ZS P -> ZS P -> Prop) : Prop :=
  forall s r x y s', Q s r -> p_deflate P s x = Some (y, s') -> is_bytes x ->
    is_bytes y /\ 1 <= zlen y <= 134217728 /\ exists r', p_inflate P r y = Some (x, r') /\ Q s' r'.

(** MAC digests are at least as long as the tag. *)
Definition mac_long (P : prims) (ok : option keys) : Prop :=
  match ok with
  | None => True
  | Some k => 0 <= m_len (k_mac k) <= 64 /\ forall seq data, m_len (k_mac k) <= zlen (p_mac P k seq data)
  end.

(** Keys as cipher.c's table allows them. *)
Definition keys_sane (ok : option keys) : Prop :=
  match ok with
  | None => True
  | Some k => (k_block k = 8 \/ k_block k = 16) /\ 0 <= k_authlen k <= 16
  end.

(** The receiver holds the sender's keys and nothing is in flight. *)
Definition in_step (P : prims) (R : CS P -> CS P -> Prop) (Q : ZS P -> ZS P -> Prop) (s r : dir P) : Prop :=
  d_keys P s = d_keys P r /\ R (d_ctx P s) (d_ctx P r) /\ Q (d_z P s) (d_z P r) /\
  d_seq P s = d_seq P r /\ d_packets P s = d_packets P r.

(** Sending a list of packets, each without error. *)
Fixpoint emits (P : prims) (initial norekey : bool) (t : tx P) (pkts : list (list Z)) : option (tx P) :=
  match pkts with
  | [] => Some t
  | p :: ps =>
    match tx_emit P initial norekey t p with
    | (t', None) => emits P initial norekey t' ps
    | (_, Some _) => None
    end
  end.

(** A schedule of the receiver: network data arrives, the reader is called. *)
Inductive rop := Feed (chunk : list Z) | Poll.
Fixpoint fed (ops : list rop) : list Z :=
  match ops with
  | [] => []
  | Feed c :: r => c ++ fed r
  | Poll :: r => fed r
  end.

(** One message as the caller sees it: sequence number, type, payload. *)
Definition msg : Type := (Z * Z * list Z)%type.
Fixpoint receive (P : prims) (initial norekey : bool) (sseq : Z) (r : rx P) (ops : list rop) : list msg * (err + rx P) :=
  match ops with
  | [] => ([], inr r)
  | Feed c :: rest =>
    match rx_feed P r c with
    | inl e => ([], inl e)
    | inr r' => receive P initial norekey sseq r' rest
    end
  | Poll :: rest =>
    match rx_poll P initial norekey sseq r with
    | RxNone _ r' => receive P initial norekey sseq r' rest
    | RxErr _ e => ([], inl e)
    | RxMsg _ r' ty pl n =>
      let '(ms, o) := receive P initial norekey sseq (rx_ready P r') rest in ((n, ty, pl) :: ms, o)
    end
  end.

(** A packet as the sender hands it over: five header bytes, type, payload. *)
Definition packet (type : Z) (payload : list Z) : list Z := repeat 0 5 ++ type :: payload.

(** The messages the receiver should see: the sent (type, payload) pairs under
    consecutive sequence numbers. *)
Fixpoint numbered (seq : Z) (sent : list (Z * list Z)) : list msg :=
  match sent with
  | [] => []
  | (ty, pl) :: r => (seq, ty, pl) :: numbered ((seq + 1) mod U32) r
  end.

(** Integrity: [verified P k ctx seq wire plain]: the bytes [wire] carry a tag
    that is right for sequence number [seq] under the keys [k], and [plain] is
    the packet they decrypt to.  For an AEAD cipher the verification is the
    cipher's own: decryption succeeds only when the tag is right. *)
Definition verified (P : prims) (k : keys) (ctx ctx' : CS P) (seq : Z) (wire plain : list Z) : Prop :=
  (aead k /\ exists need,
     zlen wire = 4 + need + k_authlen k /\
     p_crypt P ctx seq wire need 4 (k_authlen k) = Some (plain, ctx')) \/
  (etm k /\ exists sealed tag,
     wire = sealed ++ tag /\ zlen tag = m_len (k_mac k) /\
     tag = ztake (m_len (k_mac k)) (p_mac P k seq sealed) /\
     p_crypt P ctx seq sealed (zlen sealed - 4) 4 0 = Some (plain, ctx')) \/
  (eam k /\ exists first others tag ctx1 seq1 a b,
     wire = first ++ others ++ tag /\ zlen tag = m_len (k_mac k) /\
     p_crypt P ctx seq1 first (k_block k) 0 0 = Some (a, ctx1) /\
     p_crypt P ctx1 seq others (zlen others) 0 0 = Some (b, ctx') /\
     plain = a ++ b /\
     tag = ztake (m_len (k_mac k)) (p_mac P k seq plain)).

(** The payload of a plain packet: what is left between the five header bytes
    and the padding whose length the fifth byte gives (compression aside). *)
Definition body_of (plain body : list Z) : Prop :=
  exists l4 padding, zlen l4 = 4 /\ plain = l4 ++ zlen padding :: body ++ padding.

(** The bytes that arrived begin with one verified packet per delivered message,
    in order, under consecutive sequence numbers. *)
Inductive genuine (P : prims) (k : keys) : CS P -> ZS P -> Z -> list Z -> list msg -> Prop :=
| genuine_end : forall ctx z seq stream, genuine P k ctx z seq stream []
| genuine_msg : forall ctx ctx' z z' seq wire plain body ty pl rest ms,
    verified P k ctx ctx' seq wire plain ->
    body_of plain body ->
    (if k_comp_on k then p_inflate P z body = Some (ty :: pl, z') else body = ty :: pl /\ z' = z) ->
    genuine P k ctx' z' (u32 (seq + 1)) rest ms ->
    genuine P k ctx z seq (wire ++ rest) ((seq, ty, pl) :: ms).
