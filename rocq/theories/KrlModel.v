(** krl.c: key revocation lists.

    Keys are stood for by their public blobs; allocation never fails; [None] is
    an error return.  The red-black trees of key ids and blobs are lists kept in
    tree order.  The tree of serial ranges is the list of its entries in order:
    searching it with an overlapping range may stop at any of the overlapped
    entries, depending on the shape of the tree; [pick] says which. *)
From Coq Require Import String.
From Verif Require Import Base SshbufModel SshbufSpec Dec MiscNumModel AuthOptModel BitmapModel.

(** krl.h:24-40 *)
Definition KRL_MAGIC : list Z := bs "SSHKRL" ++ [10; 0].
Definition KRL_FORMAT_VERSION : Z := 1.
Definition SECT_CERTIFICATES : Z := 1.
Definition SECT_EXPLICIT_KEY : Z := 2.
Definition SECT_FINGERPRINT_SHA1 : Z := 3.
Definition SECT_SIGNATURE : Z := 4.
Definition SECT_FINGERPRINT_SHA256 : Z := 5.
Definition SECT_EXTENSION : Z := 255.
Definition CERT_SERIAL_LIST : Z := 32.
Definition CERT_SERIAL_RANGE : Z := 33.
Definition CERT_SERIAL_BITMAP : Z := 34.
Definition CERT_KEY_ID : Z := 35.
Definition CERT_EXTENSION : Z := 57.

(** krl.c:85-102 (struct revoked_certs, struct ssh_krl) *)
Record revoked_certs := mkRC { rc_ca : option (list Z); rc_serials : list (Z * Z); rc_ids : list (list Z) }.
Record krl := mkK {
  k_version : Z; k_date : Z; k_flags : Z; k_comment : option (list Z);
  k_keys : list (list Z); k_sha1s : list (list Z); k_sha256s : list (list Z);
  k_certs : list revoked_certs }.
Definition with_keys v k := mkK (k_version k) (k_date k) (k_flags k) (k_comment k) v (k_sha1s k) (k_sha256s k) (k_certs k).
Definition with_sha1s v k := mkK (k_version k) (k_date k) (k_flags k) (k_comment k) (k_keys k) v (k_sha256s k) (k_certs k).
Definition with_sha256s v k := mkK (k_version k) (k_date k) (k_flags k) (k_comment k) (k_keys k) (k_sha1s k) v (k_certs k).
Definition with_certs v k := mkK (k_version k) (k_date k) (k_flags k) (k_comment k) (k_keys k) (k_sha1s k) (k_sha256s k) v.

(** 104-111 (serial_cmp): equal if the ranges overlap *)
Definition serial_cmp (a b : Z * Z) : Z :=
  if (fst b <=? snd a) && (fst a <=? snd b) then 0 else if fst a <? fst b then -1 else 1.
(** 113-130 (key_id_cmp, blob_cmp): strcmp and memcmp-then-length are both
    lexicographic order on unsigned bytes *)
Fixpoint lex_cmp (a b : list Z) : Z :=
  match a, b with
  | [], [] => 0
  | [], _ => -1
  | _, [] => 1
  | x :: a', y :: b' => if x =? y then lex_cmp a' b' else if x <? y then -1 else 1
  end.
(** RB_INSERT (an equal entry stays) and RB_FIND *)
Fixpoint tree_insert (x : list Z) (t : list (list Z)) : list (list Z) :=
  match t with
  | [] => [x]
  | y :: r => if lex_cmp x y =? 0 then t else if lex_cmp x y <? 0 then x :: t else y :: tree_insert x r
  end.
Fixpoint tree_find (x : list Z) (t : list (list Z)) : bool :=
  match t with [] => false | y :: r => (lex_cmp x y =? 0) || tree_find x r end.

(** 132-144 (ssh_krl_init) *)
Definition ssh_krl_init : krl := mkK 0 0 0 None [] [] [] [].
(** 196-209 (ssh_krl_set_version, ssh_krl_set_comment) *)
Definition ssh_krl_set_version (k : krl) (v : Z) : krl :=
  mkK v (k_date k) (k_flags k) (k_comment k) (k_keys k) (k_sha1s k) (k_sha256s k) (k_certs k).
Definition ssh_krl_set_comment (k : krl) (c : list Z) : krl :=
  mkK (k_version k) (k_date k) (k_flags k) (Some c) (k_keys k) (k_sha1s k) (k_sha256s k) (k_certs k).

(** 211-247 (revoked_certs_for_ca_key): lookup, and update of the entry found
    or created.  sshkey_equal is equality of blobs and false on a null key. *)
Definition ca_eqb (a b : option (list Z)) : bool :=
  match a, b with None, None => true | Some x, Some y => beqb x y | _, _ => false end.
Fixpoint certs_find (ca : option (list Z)) (l : list revoked_certs) : option revoked_certs :=
  match l with [] => None | rc :: r => if ca_eqb ca (rc_ca rc) then Some rc else certs_find ca r end.
Fixpoint certs_update (ca : option (list Z)) (f : revoked_certs -> revoked_certs) (l : list revoked_certs) : list revoked_certs :=
  match l with
  | [] => [f (mkRC ca [] [])]
  | rc :: r => if ca_eqb ca (rc_ca rc) then f rc :: r else rc :: certs_update ca f r
  end.

(** 249-317 (insert_serial_range) *)
Fixpoint span {A} (p : A -> bool) (l : list A) : list A * list A :=
  match l with [] => ([], []) | x :: r => if p x then (x :: fst (span p r), snd (span p r)) else ([], l) end.
(** 290-301: the predecessors, nearest first *)
Fixpoint coalesce_pred (pre : list (Z * Z)) (ers : Z * Z) : list (Z * Z) * (Z * Z) :=
  match pre with
  | [] => ([], ers)
  | crs :: r =>
    if negb (fst ers =? 0) && (snd crs <? fst ers - 1) then (pre, ers)
    else coalesce_pred r ((if fst crs <? fst ers then fst crs else fst ers), snd ers)
  end.
(** 303-314 *)
Fixpoint coalesce_succ (post : list (Z * Z)) (ers : Z * Z) : list (Z * Z) * (Z * Z) :=
  match post with
  | [] => ([], ers)
  | crs :: r =>
    if negb (snd ers =? U64 - 1) && (snd ers + 1 <? fst crs) then (post, ers)
    else coalesce_succ r (fst ers, (if snd ers <? snd crs then snd crs else snd ers))
  end.
Definition insert_serial_range (pick : nat) (rt : list (Z * Z)) (lo hi : Z) : list (Z * Z) :=
  let rs := (lo, hi) in
  let bef := fst (span (fun e => serial_cmp rs e =? 1) rt) in
  let r1 := snd (span (fun e => serial_cmp rs e =? 1) rt) in
  let mid := fst (span (fun e => serial_cmp rs e =? 0) r1) in
  let aft := snd (span (fun e => serial_cmp rs e =? 0) r1) in
  let '(pre, ers, post) :=
    match mid with
    | [] => (bef, rs, aft)                                           (* 259-271 *)
    | _ :: _ =>
      let i := Nat.modulo pick (length mid) in
      let e := nth i mid rs in
      (bef ++ firstn i mid, ((if lo <? fst e then lo else fst e), (if snd e <? hi then hi else snd e)), skipn (S i) mid ++ aft)  (* 272-282 *)
    end in
  let '(pre', ers1) := coalesce_pred (rev pre) ers in
  let '(post', ers2) := coalesce_succ post ers1 in
  rev pre' ++ ers2 :: post'.

(** 319-338 (ssh_krl_revoke_cert_by_serial, ..._range).  The choice [pick] does
    not matter ([KrlProps.C37_any_tree_shape]); here it is 0. *)
Definition ssh_krl_revoke_cert_by_serial_range (k : krl) (ca : option (list Z)) (lo hi : Z) : option krl :=
  if (hi <? lo) || (lo =? 0) then None else
  Some (with_certs (certs_update ca (fun rc => mkRC (rc_ca rc) (insert_serial_range 0 (rc_serials rc) lo hi) (rc_ids rc)) (k_certs k)) k).
Definition ssh_krl_revoke_cert_by_serial (k : krl) (ca : option (list Z)) (serial : Z) : option krl :=
  ssh_krl_revoke_cert_by_serial_range k ca serial serial.
(** 340-363 (ssh_krl_revoke_cert_by_key_id) *)
Definition ssh_krl_revoke_cert_by_key_id (k : krl) (ca : option (list Z)) (id : list Z) : krl :=
  with_certs (certs_update ca (fun rc => mkRC (rc_ca rc) (rc_serials rc) (tree_insert id (rc_ids rc))) (k_certs k)) k.

(** A key as krl.c sees it: its blob, the results of sshkey_fingerprint_raw for
    SHA1 and SHA256 and of plain_key_blob ([None]: they fail), and for a
    certificate its serial, key id and signature key. *)
Inductive qkey := QKey (blob : list Z) (sha1 sha256 plain : option (list Z)) (cert : option (Z * list Z * qkey)).
Definition q_blob (q : qkey) := let 'QKey b _ _ _ _ := q in b.
Definition q_sha1 (q : qkey) := let 'QKey _ s _ _ _ := q in s.
Definition q_sha256 (q : qkey) := let 'QKey _ _ s _ _ := q in s.
Definition q_plain (q : qkey) := let 'QKey _ _ _ p _ := q in p.
Definition q_cert (q : qkey) := let 'QKey _ _ _ _ c := q in c.

(** 386-414 (revoke_blob, ssh_krl_revoke_key_explicit) *)
Definition ssh_krl_revoke_key_explicit (k : krl) (q : qkey) : option krl :=
  match q_plain q with None => None | Some b => Some (with_keys (tree_insert b (k_keys k)) k) end.
(** 416-449 (revoke_by_hash, ssh_krl_revoke_key_sha1, ..._sha256) *)
Definition ssh_krl_revoke_key_sha1 (k : krl) (p : list Z) : option krl :=
  if negb (zlen p =? 20) then None else Some (with_sha1s (tree_insert p (k_sha1s k)) k).
Definition ssh_krl_revoke_key_sha256 (k : krl) (p : list Z) : option krl :=
  if negb (zlen p =? 32) then None else Some (with_sha256s (tree_insert p (k_sha256s k)) k).
(** 451-467 (ssh_krl_revoke_key) *)
Definition ssh_krl_revoke_key (k : krl) (q : qkey) : option krl :=
  match q_cert q with
  | None => ssh_krl_revoke_key_explicit k q
  | Some (serial, id, ca) =>
    if serial =? 0 then Some (ssh_krl_revoke_cert_by_key_id k (Some (q_blob ca)) id)
    else ssh_krl_revoke_cert_by_serial k (Some (q_blob ca)) serial
  end.

(** ** Writing *)
(** 469-549 (choose_next_state): the next state and force_new_section *)
Definition choose_next_state (current contig : Z) (final : bool) (last_gap next_gap : Z) : Z * bool :=
  let contig := Z.min contig 2147483648 in
  let last_gap := Z.min last_gap 2147483648 in
  let next_gap := Z.min next_gap 2147483648 in
  let '(cl, cb, cbr) :=
    if current =? CERT_SERIAL_LIST then (0, 72, 72)
    else if current =? CERT_SERIAL_BITMAP then (8, 0, 72)
    else if (current =? CERT_SERIAL_RANGE) || (current =? 0) then (8, 72, 72)
    else (0, 0, 0) in
  let cost_list := (cl + 64 * contig + (if final then 0 else 72) + 7) / 8 in
  let cost_range := (8 + 128 + (if final then 0 else 72) + 7) / 8 in
  let cost_bitmap := (cb + last_gap + contig + (if final then 0 else Z.min next_gap 72) + 7) / 8 in
  let cost_bitmap_restart := (cbr + contig + (if final then 0 else Z.min next_gap 72) + 7) / 8 in
  let '(st, cost) := (CERT_SERIAL_BITMAP, cost_bitmap) in
  let '(st, cost) := if cost_range <? cost then (CERT_SERIAL_RANGE, cost_range) else (st, cost) in
  let '(st, cost) := if cost_list <? cost then (CERT_SERIAL_LIST, cost_list) else (st, cost) in
  if cost_bitmap_restart <? cost then (CERT_SERIAL_BITMAP, true) else (st, false).

(** sshbuf_put_bignum2_bytes (sshbuf-getput-basic.c:570-597) *)
Definition put_bignum (v : list Z) (m : option (list Z)) : option (list Z) :=
  if SSHBUF_SIZE_MAX - 5 <? zlen v then None else put (enc_mpint v) m.
(** 551-569 (put_bitmap); the fresh buffer is given as zeros *)
Definition put_bitmap (b : bitmap) (m : option (list Z)) : option (list Z) :=
  match bitmap_nbytes b with
  | None => None
  | Some (len, b1) =>
    match bitmap_to_string b1 (repeat 0 (Z.to_nat len)) with
    | Some (true, blob, _) => put_bignum blob m
    | _ => None
    end
  end.

(** The variables of revoked_certs_generate (571-729) that live across rounds. *)
Record gst := mkG { g_state : Z; g_sect : list Z; g_bm : option bitmap; g_start : Z; g_last : Z; g_buf : list Z }.
(** 622-635 and 695-708: finish the current section *)
Definition flush (g : gst) : option (list Z) :=
  match (if g_state g =? CERT_SERIAL_BITMAP then
           match g_bm g with None => None | Some b => put_bitmap b (Some (g_sect g)) end
         else Some (g_sect g)) with
  | None => None
  | Some sect => put_str sect (put_u8 (g_state g) (Some (g_buf g)))
  end.
(** 665-668 *)
Fixpoint put_serials (n : nat) (lo i : Z) (m : option (list Z)) : option (list Z) :=
  match n with O => m | S n' => put_serials n' lo (i + 1) (put_u64 (u64 (lo + i)) m) end.
(** 681-687 *)
Fixpoint set_bits (n : nat) (b : bitmap) (lo i start : Z) : option bitmap :=
  match n with
  | O => Some b
  | S n' => match bitmap_set_bit true b (u32 (u64 (lo + i - start))) with
            | Some (true, b') => set_bits n' b' lo (i + 1) start
            | _ => None
            end
  end.
(** 601-690: one round of the loop; [nrs] is the next range, if any *)
Definition gen_round (g : gst) (rs : Z * Z) (nrs : option (Z * Z)) : option gst :=
  let lo := fst rs in let hi := snd rs in
  let final := match nrs with None => true | Some _ => false end in
  let gap := match nrs with None => 0 | Some n => u64 (fst n - hi) end in
  let contig := u64 (1 + (hi - lo)) in
  let '(next, force) := choose_next_state (g_state g) contig final (if g_state g =? 0 then 0 else u64 (lo - g_last g)) gap in
  (* 619-637 *)
  let finish := negb (g_state g =? 0) && (force || negb (next =? g_state g) || (g_state g =? CERT_SERIAL_RANGE)) in
  match (if finish then flush g else Some (g_buf g)) with
  | None => None
  | Some buf =>
    let sect := if finish then [] else g_sect g in
    let bm := if finish then None else g_bm g in
    (* 640-660 *)
    match (if negb (next =? g_state g) || force then
             if next =? CERT_SERIAL_BITMAP then
               match put_u64 lo (Some []) with None => None | Some s => Some (s, Some bitmap_new, lo) end
             else Some ([], bm, g_start g)
           else Some (sect, bm, g_start g)) with
    | None => None
    | Some (sect, bm, start) =>
      (* 663-689 *)
      if next =? CERT_SERIAL_LIST then
        match put_serials (Z.to_nat contig) lo 0 (Some sect) with
        | None => None | Some s => Some (mkG next s bm start hi buf) end
      else if next =? CERT_SERIAL_RANGE then
        match put_u64 hi (put_u64 lo (Some sect)) with
        | None => None | Some s => Some (mkG next s bm start hi buf) end
      else
        if INT_MAX <? u64 (lo - start) then None else
        match bm with
        | None => None
        | Some b => match set_bits (Z.to_nat contig) b lo 0 start with
                    | None => None | Some b' => Some (mkG next sect (Some b') start hi buf) end
        end
    end
  end.
Fixpoint gen_rounds (g : gst) (l : list (Z * Z)) : option gst :=
  match l with
  | [] => Some g
  | rs :: r => match gen_round g rs (hd_error r) with None => None | Some g' => gen_rounds g' r end
  end.
Fixpoint put_strs (l : list (list Z)) (m : option (list Z)) : option (list Z) :=
  match l with [] => m | x :: r => put_strs r (put_str x m) end.
(** "put_u8 type, put_stringb sect" when the section is not empty *)
Definition put_section (t : Z) (sect : option (list Z)) (m : option (list Z)) : option (list Z) :=
  match sect with
  | None => None
  | Some [] => m
  | Some s => put_str s (put_u8 t m)
  end.
(** 571-729 (revoked_certs_generate), from an empty buffer *)
Definition revoked_certs_generate (rc : revoked_certs) : option (list Z) :=
  match put_str [] (put_str (match rc_ca rc with None => [] | Some b => b end) (Some [])) with
  | None => None
  | Some hdr =>
    match gen_rounds (mkG 0 [] None 0 0 hdr) (rc_serials rc) with
    | None => None
    | Some g =>
      match (if g_state g =? 0 then Some (g_buf g) else flush g) with
      | None => None
      | Some buf => put_section CERT_KEY_ID (put_strs (rc_ids rc) (Some [])) (Some buf)
      end
    end
  end.
(** 757-764 *)
Fixpoint put_certs (l : list revoked_certs) (m : option (list Z)) : option (list Z) :=
  match l with
  | [] => m
  | rc :: r => match revoked_certs_generate rc with
               | None => None
               | Some sect => put_certs r (put_str sect (put_u8 SECT_CERTIFICATES m))
               end
  end.
(** 731-808 (ssh_krl_to_blob), into an empty buffer; [now] is the clock.  The
    date, if it was 0, is set in the list itself. *)
Definition stamp (now : Z) (k : krl) : krl :=
  if k_date k =? 0 then mkK (k_version k) now (k_flags k) (k_comment k) (k_keys k) (k_sha1s k) (k_sha256s k) (k_certs k) else k.
Definition ssh_krl_to_blob (now : Z) (k0 : krl) : option (list Z) :=
  let k := stamp now k0 in
  let hdr := put_str (match k_comment k with None => [] | Some c => c end) (put_str []
    (put_u64 (k_flags k) (put_u64 (k_date k) (put_u64 (k_version k) (put_u32 KRL_FORMAT_VERSION (put KRL_MAGIC (Some []))))))) in
  put_section SECT_FINGERPRINT_SHA256 (put_strs (k_sha256s k) (Some []))
  (put_section SECT_FINGERPRINT_SHA1 (put_strs (k_sha1s k) (Some []))
  (put_section SECT_EXPLICIT_KEY (put_strs (k_keys k) (Some []))
  (put_certs (k_certs k) hdr))).

(** ** Reading.  [PFuel] would be a loop running longer than the input allows. *)
Inductive pres (A : Type) := POk (a : A) | PErr | PFuel.
Arguments POk {A}. Arguments PErr {A}. Arguments PFuel {A}.

(** sshbuf_get_bignum2_bytes_direct *)
Definition get_bignum (l : list Z) : option (list Z * list Z) :=
  match dec_mpint l with ROk p => Some p | RErr _ => None end.
(** 826-863 (cert_extension_subsection) and 1006-1041 (extension_section):
    true when accepted, which needs "critical" to be 0 and no trailing data *)
Definition extension_ok (s : list Z) : bool :=
  match get_cstr s with
  | None => false
  | Some (_, s1) =>
    match get_int 1 s1 with
    | None => false
    | Some (critical, s2) =>
      match get_str s2 with
      | None => false
      | Some (_, rest) => (zlen rest =? 0) && (critical =? 0)
      end
    end
  end.
(** 899-905 *)
Fixpoint parse_list (fuel : nat) (ca : option (list Z)) (s : list Z) (k : krl) : pres krl :=
  match s with
  | [] => POk k
  | _ =>
    match fuel with
    | O => PFuel
    | S f =>
      match get_int 8 s with
      | None => PErr
      | Some (serial, r) =>
        match ssh_krl_revoke_cert_by_serial k ca serial with None => PErr | Some k' => parse_list f ca r k' end
      end
    end
  end.
(** 929-940: [n] rounds left, [serial] the counter *)
Fixpoint parse_bits (n : nat) (ca : option (list Z)) (b : bitmap) (lo serial : Z) (k : krl) : pres krl :=
  match n with
  | O => POk k
  | S n' =>
    if (0 <? serial) && (u64 (lo + serial) =? 0) then PErr else
    match bitmap_test_bit b (u32 serial) with
    | None => PErr
    | Some false => parse_bits n' ca b lo (serial + 1) k
    | Some true =>
      match ssh_krl_revoke_cert_by_serial k ca (u64 (lo + serial)) with
      | None => PErr
      | Some k' => parse_bits n' ca b lo (serial + 1) k'
      end
    end
  end.
(** 945-954 *)
Fixpoint parse_ids (fuel : nat) (ca : option (list Z)) (s : list Z) (k : krl) : pres krl :=
  match s with
  | [] => POk k
  | _ =>
    match fuel with
    | O => PFuel
    | S f => match get_cstr s with
             | None => PErr
             | Some (id, r) => parse_ids f ca r (ssh_krl_revoke_cert_by_key_id k ca id)
             end
    end
  end.
(** 897-969: one subsection *)
Definition parse_sub (ca : option (list Z)) (type : Z) (s : list Z) (k : krl) : pres krl :=
  if type =? CERT_SERIAL_LIST then parse_list (length s) ca s k
  else if type =? CERT_SERIAL_RANGE then
    match get_int 8 s with
    | None => PErr
    | Some (lo, s1) =>
      match get_int 8 s1 with
      | None => PErr
      | Some (hi, s2) =>
        match ssh_krl_revoke_cert_by_serial_range k ca lo hi with
        | None => PErr
        | Some k' => if 0 <? zlen s2 then PErr else POk k'
        end
      end
    end
  else if type =? CERT_SERIAL_BITMAP then
    match get_int 8 s with
    | None => PErr
    | Some (lo, s1) =>
      match get_bignum s1 with
      | None => PErr
      | Some (blob, s2) =>
        match bitmap_from_string true bitmap_new blob with
        | Some (true, b) =>
          match bitmap_nbits b with
          | None => PErr
          | Some (n, b') =>
            match parse_bits (Z.to_nat n) ca b' lo 0 k with
            | POk k' => if 0 <? zlen s2 then PErr else POk k'
            | e => e
            end
          end
        | _ => PErr
        end
      end
    end
  else if type =? CERT_KEY_ID then parse_ids (length s) ca s k
  else if type =? CERT_EXTENSION then (if extension_ok s then POk k else PErr)
  else PErr.
Fixpoint parse_subs (fuel : nat) (ca : option (list Z)) (s : list Z) (k : krl) : pres krl :=
  match s with
  | [] => POk k
  | _ =>
    match fuel with
    | O => PFuel
    | S f =>
      match get_int 1 s with
      | None => PErr
      | Some (type, s1) =>
        match get_str s1 with
        | None => PErr
        | Some (sub, s2) => match parse_sub ca type sub k with POk k' => parse_subs f ca s2 k' | e => e end
        end
      end
    end
  end.

Section Reading.
(** sshkey_from_blob: the key (as its own blob) held by a byte string *)
Variable key_from_blob : list Z -> option (list Z).

(** 865-980 (parse_revoked_certs) *)
Definition parse_revoked_certs (s : list Z) (k : krl) : pres krl :=
  match get_str s with
  | None => PErr
  | Some (blob, s1) =>
    match get_str s1 with
    | None => PErr
    | Some (_, s2) =>
      if zlen blob =? 0 then parse_subs (length s2) None s2 k
      else match key_from_blob blob with None => PErr | Some ca => parse_subs (length s2) (Some ca) s2 k end
    end
  end.
(** 982-1004 (blob_section) *)
Fixpoint blob_section (fuel : nat) (s : list Z) (t : list (list Z)) (expected : Z) : pres (list (list Z)) :=
  match s with
  | [] => POk t
  | _ =>
    match fuel with
    | O => PFuel
    | S f =>
      match get_str s with
      | None => PErr
      | Some (d, r) =>
        if negb (expected =? 0) && negb (zlen d =? expected) then PErr else blob_section f r (tree_insert d t) expected
      end
    end
  end.
(** 1102-1142: one section *)
Definition parse_section (type : Z) (s : list Z) (k : krl) : pres krl :=
  if type =? SECT_CERTIFICATES then parse_revoked_certs s k
  else if type =? SECT_EXPLICIT_KEY then
    match blob_section (length s) s (k_keys k) 0 with POk t => POk (with_keys t k) | PErr => PErr | PFuel => PFuel end
  else if type =? SECT_FINGERPRINT_SHA1 then
    match blob_section (length s) s (k_sha1s k) 20 with POk t => POk (with_sha1s t k) | PErr => PErr | PFuel => PFuel end
  else if type =? SECT_FINGERPRINT_SHA256 then
    match blob_section (length s) s (k_sha256s k) 32 with POk t => POk (with_sha256s t k) | PErr => PErr | PFuel => PFuel end
  else if type =? SECT_EXTENSION then (if extension_ok s then POk k else PErr)
  else PErr.
Fixpoint parse_sections (fuel : nat) (s : list Z) (k : krl) : pres krl :=
  match s with
  | [] => POk k
  | _ =>
    match fuel with
    | O => PFuel
    | S f =>
      match get_int 1 s with
      | None => PErr
      | Some (type, s1) =>
        match get_str s1 with
        | None => PErr
        | Some (sect, s2) =>
          if type =? SECT_SIGNATURE then                 (* 1126-1132: skips a second string *)
            match get_str s2 with None => PErr | Some (_, s3) => parse_sections f s3 k end
          else match parse_section type sect k with POk k' => parse_sections f s2 k' | e => e end
        end
      end
    end
  end.
(** 1043-1154 (ssh_krl_from_blob) *)
Definition ssh_krl_from_blob (b : list Z) : pres krl :=
  if negb (beqb (ztake 8 b) KRL_MAGIC) then PErr else
  match get_int 4 (zdrop 8 b) with
  | None => PErr
  | Some (format, s) =>
    if negb (format =? KRL_FORMAT_VERSION) then PErr else
    match get_int 8 s with None => PErr | Some (version, s) =>
    match get_int 8 s with None => PErr | Some (date, s) =>
    match get_int 8 s with None => PErr | Some (flags, s) =>
    match get_str s with None => PErr | Some (_, s) =>
    match get_cstr s with None => PErr | Some (comment, s) =>
    parse_sections (length s) s (mkK version date flags (Some comment) [] [] [] [])
    end end end end end
  end.
End Reading.

(** ** Checking *)
Inductive answer := KOk | KRevoked | KError.
(** 1156-1188 (is_cert_revoked); RB_FIND of one serial finds an entry holding it *)
Definition is_cert_revoked (serial : Z) (id : list Z) (rc : revoked_certs) : bool :=
  if tree_find id (rc_ids rc) then true else
  if serial =? 0 then false else
  existsb (fun e => serial_cmp (serial, serial) e =? 0) (rc_serials rc).
Definition certs_revoked (ca : option (list Z)) (serial : Z) (id : list Z) (k : krl) : bool :=
  match certs_find ca (k_certs k) with None => false | Some rc => is_cert_revoked serial id rc end.
(** 1190-1252 (is_key_revoked) *)
Definition is_key_revoked (k : krl) (q : qkey) : answer :=
  match q_sha1 q with
  | None => KError
  | Some h1 =>
    if tree_find h1 (k_sha1s k) then KRevoked else
    match q_sha256 q with
    | None => KError
    | Some h2 =>
      if tree_find h2 (k_sha256s k) then KRevoked else
      match q_plain q with
      | None => KError
      | Some p =>
        if tree_find p (k_keys k) then KRevoked else
        match q_cert q with
        | None => KOk
        | Some (serial, id, ca) =>
          if certs_revoked (Some (q_blob ca)) serial id k then KRevoked else
          if certs_revoked None serial id k then KRevoked else KOk
        end
      end
    end
  end.
(** 1254-1269 (ssh_krl_check_key) *)
Definition ssh_krl_check_key (k : krl) (q : qkey) : answer :=
  match is_key_revoked k q with
  | KOk => match q_cert q with None => KOk | Some (_, _, ca) => is_key_revoked k ca end
  | a => a
  end.
