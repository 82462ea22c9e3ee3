(** kex.c: proposals on the wire, choice of algorithms, key derivation.
    Allocation failures are not modelled; proposals are C strings (no NUL). *)
From Coq Require Import String.
From Verif Require Import Base Text Dec SshbufModel SshbufSpec MatchModel KexNamesModel.

(** Indices of a proposal, kex.h 74-86. *)
Definition PROPOSAL_KEX_ALGS := 0%nat.
Definition PROPOSAL_SERVER_HOST_KEY_ALGS := 1%nat.
Definition PROPOSAL_ENC_ALGS_CTOS := 2%nat.
Definition PROPOSAL_ENC_ALGS_STOC := 3%nat.
Definition PROPOSAL_MAC_ALGS_CTOS := 4%nat.
Definition PROPOSAL_MAC_ALGS_STOC := 5%nat.
Definition PROPOSAL_COMP_ALGS_CTOS := 6%nat.
Definition PROPOSAL_COMP_ALGS_STOC := 7%nat.
Definition PROPOSAL_MAX := 10%nat.
Definition prop (p : list (list Z)) (i : nat) : list Z := nth i p [].

(** kex_prop2buf, kex.c 149-174, without the size limit of the buffer. *)
Definition kex_prop2buf (p : list (list Z)) : list Z :=
  repeat 0 16 ++ flat_map enc_string p ++ be_enc 1 0 ++ be_enc 4 0.
(** kex_send_kexinit, 586-596: the cookie is overwritten with 16 random bytes. *)
Definition with_cookie (cookie b : list Z) : list Z := cookie ++ zdrop 16 b.

(** kex_buf2prop, kex.c 177-221: the strings and first_kex_follows. *)
Fixpoint get_cstrs (n : nat) (l : list Z) : option (list (list Z) * list Z) :=
  match n with
  | O => Some ([], l)
  | S n => match get_cstr l with
           | None => None
           | Some (v, r) => match get_cstrs n r with None => None | Some (vs, r') => Some (v :: vs, r') end
           end
  end.
Definition kex_buf2prop (raw : list Z) : option (list (list Z) * Z) :=
  if zlen raw <? 16 then None
  else match get_cstrs PROPOSAL_MAX (zdrop 16 raw) with
       | None => None
       | Some (p, r) => match get_int 1 r with
                        | None => None
                        | Some (v, r') => match get_int 4 r' with None => None | Some _ => Some (p, v) end
                        end
       end.

(** The structural check of kex_input_kexinit, kex.c 624-657: ten strings of any
    content, a byte, a word, and nothing else. *)
Fixpoint get_strs (n : nat) (l : list Z) : option (list Z) :=
  match n with
  | O => Some l
  | S n => match get_str l with None => None | Some (_, r) => get_strs n r end
  end.
Definition kexinit_form (pkt : list Z) : bool :=
  if zlen pkt <? 16 then false
  else match get_strs PROPOSAL_MAX (zdrop 16 pkt) with
       | None => false
       | Some r => zlen r =? 5
       end.

(** What the algorithm tables say about a name (cipher.c, mac.c, kex-names.c,
    sshkey.c): parameters of the model. *)
Record cinfo := mkCi { ci_iv : Z; ci_key : Z; ci_block : Z; ci_auth : Z; ci_sec : Z }.
Record tables := mkT { t_cipher : list Z -> option cinfo;   (* cipher_by_name *)
                       t_mac : list Z -> option Z;          (* mac_setup; key_len *)
                       t_kex : list Z -> bool;              (* kex_name_valid *)
                       t_hostkey : list Z -> bool;          (* sshkey_type_from_name != KEY_UNSPEC *)
                       t_zlib : bool }.                     (* WITH_ZLIB *)
Definition SSH_ERR_NO_CIPHER_ALG_MATCH := -31.
Definition SSH_ERR_NO_MAC_ALG_MATCH := -32.
Definition SSH_ERR_NO_COMPRESS_ALG_MATCH := -33.
Definition SSH_ERR_NO_KEX_ALG_MATCH := -34.
Definition SSH_ERR_NO_HOSTKEY_ALG_MATCH := -35.

(** One direction of the new keys: names and sizes; no MAC name under an
    authenticated cipher. *)
Record dir := mkDir { d_enc : list Z; d_info : cinfo; d_mac : option (list Z); d_mackey : Z; d_comp : list Z }.

Section Choose.
Variable T : tables.
(** choose_enc 795-815, choose_mac 817-833, choose_comp 835-856, choose_kex
    858-874, choose_hostkeyalg 876-893. *)
Definition choose_enc (client server : list Z) : res (list Z * cinfo) :=
  match match_list client server with
  | None => RErr SSH_ERR_NO_CIPHER_ALG_MATCH
  | Some n => match t_cipher T n with None => RErr SSH_ERR_INTERNAL_ERROR | Some c => ROk (n, c) end
  end.
Definition choose_mac (client server : list Z) : res (list Z * Z) :=
  match match_list client server with
  | None => RErr SSH_ERR_NO_MAC_ALG_MATCH
  | Some n => match t_mac T n with None => RErr SSH_ERR_INTERNAL_ERROR | Some k => ROk (n, k) end
  end.
Definition choose_comp (client server : list Z) : res (list Z) :=
  match match_list client server with
  | None => RErr SSH_ERR_NO_COMPRESS_ALG_MATCH
  | Some n => if (t_zlib T && beqb n (bs "zlib@openssh.com")) || beqb n (bs "none") then ROk n
              else RErr SSH_ERR_INTERNAL_ERROR
  end.
Definition choose_kex (client server : list Z) : res (list Z) :=
  match match_list client server with
  | None => RErr SSH_ERR_NO_KEX_ALG_MATCH
  | Some n => if t_kex T n then ROk n else RErr SSH_ERR_INTERNAL_ERROR
  end.
Definition choose_hostkeyalg (client server : list Z) : res (list Z) :=
  match match_list client server with
  | None => RErr SSH_ERR_NO_HOSTKEY_ALG_MATCH
  | Some n => if t_hostkey T n then ROk n else RErr SSH_ERR_INTERNAL_ERROR
  end.

(** One pass of the mode loop, kex.c 994-1029. *)
Definition choose_dir (cprop sprop : list (list Z)) (ctos : bool) : res dir :=
  let nenc := if ctos then PROPOSAL_ENC_ALGS_CTOS else PROPOSAL_ENC_ALGS_STOC in
  let nmac := if ctos then PROPOSAL_MAC_ALGS_CTOS else PROPOSAL_MAC_ALGS_STOC in
  let ncomp := if ctos then PROPOSAL_COMP_ALGS_CTOS else PROPOSAL_COMP_ALGS_STOC in
  match choose_enc (prop cprop nenc) (prop sprop nenc) with
  | RErr e => RErr e
  | ROk (en, ci) =>
      match (if ci_auth ci =? 0 then
               match choose_mac (prop cprop nmac) (prop sprop nmac) with
               | RErr e => RErr e
               | ROk (n, k) => ROk (Some n, k)
               end
             else ROk (None, 0)) with
      | RErr e => RErr e
      | ROk (mn, mk) =>
          match choose_comp (prop cprop ncomp) (prop sprop ncomp) with
          | RErr e => RErr e
          | ROk cn => ROk (mkDir en ci mn mk cn)
          end
      end
  end.
End Choose.

(** proposals_match, kex.c 895-917: compare the first names of the first two lists. *)
Definition first_name (l : list Z) : list Z := hd [] (split COMMA l).
Definition proposals_match (my peer : list (list Z)) : bool :=
  beqb (first_name (prop my PROPOSAL_KEX_ALGS)) (first_name (prop peer PROPOSAL_KEX_ALGS)) &&
  beqb (first_name (prop my PROPOSAL_SERVER_HOST_KEY_ALGS)) (first_name (prop peer PROPOSAL_SERVER_HOST_KEY_ALGS)).

(** Flags of struct kex used here. *)
Record kflags := mkF { f_server : bool; f_initial : bool; f_ext_c : bool; f_ext_s : bool; f_strict : bool;
                       f_rsa256 : bool; f_rsa512 : bool }.
(** Outcome of kex_choose_conf. *)
Record conf := mkConf { c_kex : list Z; c_hostkey : list Z; c_in : dir; c_out : dir;
                        c_need : Z; c_dh_need : Z; c_skip : bool; c_flags : kflags }.
Inductive kres := KOk (c : conf) | KErr (code : Z) | KBadPacket | KDisconnect.

Definition kexalgs_contains (peer : list (list Z)) (ext : list Z) : bool := kex_has_any_alg (prop peer PROPOSAL_KEX_ALGS) ext.
Definition signals (f : kflags) (peer : list (list Z)) : kflags :=
  if f_initial f then
    if f_server f then
      mkF true true (kexalgs_contains peer (bs "ext-info-c")) (f_ext_s f) (kexalgs_contains peer (bs "kex-strict-c-v00@openssh.com"))
          (f_rsa256 f || kex_has_any_alg (prop peer PROPOSAL_SERVER_HOST_KEY_ALGS) (bs "rsa-sha2-256,rsa-sha2-256-cert-v01@openssh.com"))
          (f_rsa512 f || kex_has_any_alg (prop peer PROPOSAL_SERVER_HOST_KEY_ALGS) (bs "rsa-sha2-512,rsa-sha2-512-cert-v01@openssh.com"))
    else mkF false true (f_ext_c f) (kexalgs_contains peer (bs "ext-info-s")) (kexalgs_contains peer (bs "kex-strict-s-v00@openssh.com"))
             (f_rsa256 f) (f_rsa512 f)
  else f.
(** The key sizes of kex.c 1030-1045. *)
Definition dir_need (d : dir) : Z := Z.max (Z.max (Z.max (ci_key (d_info d)) (ci_block (d_info d))) (ci_iv (d_info d))) (d_mackey d).
Definition dir_dh_need (d : dir) : Z := Z.max (Z.max (Z.max (ci_sec (d_info d)) (ci_block (d_info d))) (ci_iv (d_info d))) (d_mackey d).

(** kex_choose_conf, kex.c 925-1056.  [my] and [peer] are the raw KEXINIT bodies,
    [seq] the sequence number of the peer's one.  The loop over modes handles
    MODE_IN first. *)
Definition kex_choose_conf (T : tables) (f : kflags) (seq : Z) (my_raw peer_raw : list Z) : kres :=
  match kex_buf2prop my_raw with
  | None => KBadPacket
  | Some (my, _) =>
  match kex_buf2prop peer_raw with
  | None => KBadPacket
  | Some (peer, first_kex_follows) =>
      let cprop := if f_server f then peer else my in
      let sprop := if f_server f then my else peer in
      let f' := signals f peer in
      if f_initial f && f_strict f' && negb (seq =? 0) then KDisconnect
      else match choose_kex T (prop cprop PROPOSAL_KEX_ALGS) (prop sprop PROPOSAL_KEX_ALGS) with
      | RErr e => KErr e
      | ROk kn =>
      match choose_hostkeyalg T (prop cprop PROPOSAL_SERVER_HOST_KEY_ALGS) (prop sprop PROPOSAL_SERVER_HOST_KEY_ALGS) with
      | RErr e => KErr e
      | ROk hn =>
      match choose_dir T cprop sprop (f_server f) with (* MODE_IN *)
      | RErr e => KErr e
      | ROk din =>
      match choose_dir T cprop sprop (negb (f_server f)) with (* MODE_OUT *)
      | RErr e => KErr e
      | ROk dout =>
          KOk (mkConf kn hn din dout (Z.max (Z.max 0 (dir_need din)) (dir_need dout))
                      (Z.max (Z.max 0 (dir_dh_need din)) (dir_dh_need dout))
                      (negb (first_kex_follows =? 0) && negb (proposals_match my peer)) f')
      end end end end
  end end.

(** kex_input_newkeys, kex.c 537-560: the initial-only signalling names are
    dropped from our own proposal before any later exchange. *)
Definition rekey_proposal (server : bool) (p : list (list Z)) : option (list (list Z)) :=
  match p with
  | kexalgs :: r =>
      match match_filter_denylist kexalgs (if server then bs "ext-info-s,kex-strict-s-v00@openssh.com"
                                           else bs "ext-info-c,kex-strict-c-v00@openssh.com") with
      | None => None
      | Some cp => Some (cp :: r)
      end
  | [] => None
  end.
(** kex_proposal_populate_entries, kex.c 90-137, the KEX list only:
    the names given, with our signalling names appended. *)
Definition signalling (server : bool) : list Z :=
  if server then bs "ext-info-s,kex-strict-s-v00@openssh.com" else bs "ext-info-c,kex-strict-c-v00@openssh.com".
Definition populate_kex (server : bool) (kexalgos : list Z) : option (list Z) := kex_names_cat kexalgos (signalling server).

(** ** Key derivation *)
Section Derive.
Variable hash : list Z -> list Z.  (* ssh_digest of kex->hash_alg *)
Variable mdsz : Z.                 (* ssh_digest_bytes *)

(** derive_key, kex.c 1058-1120.  The buffer of ROUNDUP(need, mdsz) bytes is
    explicit: a write past its end is [DOverflow].  [have] is a u_int.  The digest
    calls do not fail.  [DFuel] stands for a loop that does not end. *)
Inductive dres := DOk (key : list Z) | DInvalid | DOverflow | DFuel.
Definition ROUNDUP (x y : Z) : Z := (x + (y - 1)) / y * y.
Definition write_at (buf : list Z) (off : Z) (v : list Z) : option (list Z) :=
  if zlen buf <? off + zlen v then None else Some (ztake off buf ++ v ++ zdrop (off + zlen v) buf).
Fixpoint derive_loop (fuel : nat) (K H buf : list Z) (have need : Z) : dres :=
  if have <? need then
    match fuel with
    | O => DFuel
    | S fuel =>
        match write_at buf have (hash (K ++ H ++ ztake have buf)) with
        | None => DOverflow
        | Some buf' => derive_loop fuel K H buf' (u32 (have + mdsz)) need
        end
    end
  else DOk buf.
Definition derive_key (K H sid : list Z) (id need : Z) : dres :=
  if mdsz =? 0 then DInvalid
  else match write_at (repeat 0 (Z.to_nat (ROUNDUP need mdsz))) 0 (hash (K ++ H ++ [id] ++ sid)) with
       | None => DOverflow
       | Some buf => derive_loop (Z.to_nat need) K H buf (u32 mdsz) need
       end.

(** kex_derive_keys, kex.c 1123-1160: session id, the six keys, and which
    direction gets which.  [kd_in]/[kd_out] are (iv, key, mac key). *)
Record triple := mkTriple { kd_iv : list Z; kd_key : list Z; kd_mac : list Z }.
Record derived := mkD { kd_in : triple; kd_out : triple }.
Fixpoint derive_all (n : nat) (K H sid : list Z) (id need : Z) : option (list (list Z)) :=
  match n with
  | O => Some []
  | S n => match derive_key K H sid id need with
           | DOk k => option_map (cons k) (derive_all n K H sid (id + 1) need)
           | _ => None
           end
  end.
Definition kex_derive_keys (server initial : bool) (sid : list Z) (need : Z) (H K : list Z) : option (list Z * derived) :=
  let sid' := if initial then (if is_nil sid then Some H else None) else (if is_nil sid then None else Some sid) in
  match sid' with
  | None => None
  | Some sid =>
      match derive_all 6 K H sid 65 need with
      | Some keys =>
          let k i := nth i keys [] in
          let for_dir (ctos : bool) := mkTriple (k (if ctos then 0 else 1)%nat) (k (if ctos then 2 else 3)%nat) (k (if ctos then 4 else 5)%nat) in
          Some (sid, mkD (for_dir server) (for_dir (negb server)))
      | None => None
      end
  end.
End Derive.

(** A sequence of key exchanges on one connection: KEX_INITIAL is set for the
    first only (kex.c 565). *)
Fixpoint exchanges (hash : list Z -> list Z) (mdsz : Z) (server initial : bool) (sid : list Z)
    (xs : list (Z * list Z * list Z)) : option (list Z * list derived) :=
  match xs with
  | [] => Some (sid, [])
  | (need, H, K) :: r =>
      match kex_derive_keys hash mdsz server initial sid need H K with
      | None => None
      | Some (sid', d) => match exchanges hash mdsz server false sid' r with
                          | None => None
                          | Some (s, ds) => Some (s, d :: ds)
                          end
      end
  end.
