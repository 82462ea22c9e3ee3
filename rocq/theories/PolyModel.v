(** Model of poly1305.c (poly1305_auth).  Every variable of type uint32_t or
    uint64_t is an integer reduced explicitly wherever the C type reduces it. *)
From Verif Require Import Base.

(** Word operations of C on unsigned types: [a << n] for a 32-bit and a 64-bit
    left operand (the result wraps), [a >> n], [a & b], [a | b]. *)
Definition shl32 (a n : Z) : Z := u32 (Z.shiftl a n).
Definition shl64 (a n : Z) : Z := u64 (Z.shiftl a n).
Definition shr (a n : Z) : Z := Z.shiftr a n.

(** poly1305.c:19-23 U8TO32_LE and chacha.c:27-31 U8TO32_LITTLE: the four
    bytes of [p] from index [i] as a word, least significant byte first. *)
Definition at_ (p : list Z) (i : Z) : Z := nth (Z.to_nat i) p 0.
Definition load32 (p : list Z) (i : Z) : Z :=
  Z.lor (Z.lor (Z.lor (at_ p i) (shl32 (at_ p (i + 1)) 8))
    (shl32 (at_ p (i + 2)) 16)) (shl32 (at_ p (i + 3)) 24).

(** poly1305.c:25-31 U32TO8_LE and chacha.c:33-39 U32TO8_LITTLE: the low 32
    bits of [v] as four bytes, least significant first. *)
Definition store32 (v : Z) : list Z := [u8 v; u8 (shr v 8); u8 (shr v 16); u8 (shr v 24)].

(** poly1305.c:36 h0..h4. *)
Record limbs := mkL { l0 : Z; l1 : Z; l2 : Z; l3 : Z; l4 : Z }.

(** poly1305.c:47-61: r0..r4 from the first sixteen bytes of the key. *)
Definition clamp_key (key : list Z) : limbs :=
  let t0 := load32 key 0 in
  let t1 := load32 key 4 in
  let t2 := load32 key 8 in
  let t3 := load32 key 12 in
  let r0 := Z.land t0 0x3ffffff in
  let t0 := Z.lor (shr t0 26) (shl32 t1 6) in
  let r1 := Z.land t0 0x3ffff03 in
  let t1 := Z.lor (shr t1 20) (shl32 t2 12) in
  let r2 := Z.land t1 0x3ffc0ff in
  let t2 := Z.lor (shr t2 14) (shl32 t3 18) in
  let r3 := Z.land t2 0x3f03fff in
  let t3 := shr t3 8 in
  let r4 := Z.land t3 0x00fffff in
  mkL r0 r1 r2 r3 r4.

(** poly1305.c:81-90 and 119-128: adding sixteen bytes to h.  [hibit] is
    [1 << 24] for a full block and 0 for the padded last block. *)
Definition add_block (h : limbs) (m : list Z) (hibit : Z) : limbs :=
  let t0 := load32 m 0 in
  let t1 := load32 m 4 in
  let t2 := load32 m 8 in
  let t3 := load32 m 12 in
  mkL (u32 (l0 h + Z.land t0 0x3ffffff))
      (u32 (l1 h + Z.land (shr (Z.lor (shl64 t1 32) t0) 26) 0x3ffffff))
      (u32 (l2 h + Z.land (shr (Z.lor (shl64 t2 32) t1) 20) 0x3ffffff))
      (u32 (l3 h + Z.land (shr (Z.lor (shl64 t3 32) t2) 14) 0x3ffffff))
      (u32 (l4 h + Z.lor (shr t3 8) hibit)).

(** mul32x32_64 (poly1305.c:17) and sums of such products are 64-bit. *)
Definition mul64 (a b : Z) : Z := u64 (a * b).
Definition add64 (a b : Z) : Z := u64 (a + b).

(** poly1305.c:100-105: the carries after a multiplication. *)
Definition carry (t0 t1 t2 t3 t4 : Z) : limbs :=
  let h0 := Z.land (u32 t0) 0x3ffffff in let c := shr t0 26 in
  let t1 := add64 t1 c in
  let h1 := Z.land (u32 t1) 0x3ffffff in let b := u32 (shr t1 26) in
  let t2 := add64 t2 b in
  let h2 := Z.land (u32 t2) 0x3ffffff in let b := u32 (shr t2 26) in
  let t3 := add64 t3 b in
  let h3 := Z.land (u32 t3) 0x3ffffff in let b := u32 (shr t3 26) in
  let t4 := add64 t4 b in
  let h4 := Z.land (u32 t4) 0x3ffffff in let b := u32 (shr t4 26) in
  let h0 := u32 (h0 + u32 (b * 5)) in
  mkL h0 h1 h2 h3 h4.

(** poly1305.c:93-105 (poly1305_donna_mul), with s1..s4 of lines 63-66. *)
Definition mul_r (h r : limbs) : limbs :=
  let '(mkL h0 h1 h2 h3 h4) := h in
  let '(mkL r0 r1 r2 r3 r4) := r in
  let s1 := u32 (r1 * 5) in
  let s2 := u32 (r2 * 5) in
  let s3 := u32 (r3 * 5) in
  let s4 := u32 (r4 * 5) in
  let t0 := add64 (add64 (add64 (add64 (mul64 h0 r0) (mul64 h1 s4)) (mul64 h2 s3)) (mul64 h3 s2)) (mul64 h4 s1) in
  let t1 := add64 (add64 (add64 (add64 (mul64 h0 r1) (mul64 h1 r0)) (mul64 h2 s4)) (mul64 h3 s3)) (mul64 h4 s2) in
  let t2 := add64 (add64 (add64 (add64 (mul64 h0 r2) (mul64 h1 r1)) (mul64 h2 r0)) (mul64 h3 s4)) (mul64 h4 s3) in
  let t3 := add64 (add64 (add64 (add64 (mul64 h0 r3) (mul64 h1 r2)) (mul64 h2 r1)) (mul64 h3 r0)) (mul64 h4 s4) in
  let t4 := add64 (add64 (add64 (add64 (mul64 h0 r4) (mul64 h1 r3)) (mul64 h2 r2)) (mul64 h3 r1)) (mul64 h4 r0) in
  carry t0 t1 t2 t3 t4.

(** poly1305.c:113-116: the padded last block. *)
Definition pad_block (m : list Z) : list Z := m ++ [1] ++ repeat 0 (15 - length m).

(** poly1305.c:76-130: the loop over the message.  The fuel only bounds the
    recursion; [None] when it runs out, which PolyProof excludes. *)
Fixpoint blocks (fuel : nat) (r h : limbs) (m : list Z) : option limbs :=
  match fuel with
  | O => None
  | S k =>
      if zlen m >=? 16 then blocks k r (mul_r (add_block h m (Z.shiftl 1 24)) r) (zdrop 16 m)
      else if zlen m =? 0 then Some h
      else Some (mul_r (add_block h (pad_block m) 0) r)
  end.

(** poly1305.c:132-151 (poly1305_donna_finish): carries, and the choice
    between h and h - p by a mask. *)
Definition not32 (x : Z) : Z := U32 - 1 - x.
Definition freeze (h : limbs) : limbs :=
  let '(mkL h0 h1 h2 h3 h4) := h in
  let b := shr h0 26 in let h0 := Z.land h0 0x3ffffff in
  let h1 := u32 (h1 + b) in let b := shr h1 26 in let h1 := Z.land h1 0x3ffffff in
  let h2 := u32 (h2 + b) in let b := shr h2 26 in let h2 := Z.land h2 0x3ffffff in
  let h3 := u32 (h3 + b) in let b := shr h3 26 in let h3 := Z.land h3 0x3ffffff in
  let h4 := u32 (h4 + b) in let b := shr h4 26 in let h4 := Z.land h4 0x3ffffff in
  let h0 := u32 (h0 + u32 (b * 5)) in let b := shr h0 26 in let h0 := Z.land h0 0x3ffffff in
  let h1 := u32 (h1 + b) in
  let g0 := u32 (h0 + 5) in let b := shr g0 26 in let g0 := Z.land g0 0x3ffffff in
  let g1 := u32 (h1 + b) in let b := shr g1 26 in let g1 := Z.land g1 0x3ffffff in
  let g2 := u32 (h2 + b) in let b := shr g2 26 in let g2 := Z.land g2 0x3ffffff in
  let g3 := u32 (h3 + b) in let b := shr g3 26 in let g3 := Z.land g3 0x3ffffff in
  let g4 := u32 (h4 + b - Z.shiftl 1 26) in
  let b := u32 (shr g4 31 - 1) in
  let nb := not32 b in
  mkL (Z.lor (Z.land h0 nb) (Z.land g0 b))
      (Z.lor (Z.land h1 nb) (Z.land g1 b))
      (Z.lor (Z.land h2 nb) (Z.land g2 b))
      (Z.lor (Z.land h3 nb) (Z.land g3 b))
      (Z.lor (Z.land h4 nb) (Z.land g4 b)).

(** poly1305.c:153-161: the tag from h and the last sixteen bytes of the key. *)
Definition tag_of (h : limbs) (key : list Z) : list Z :=
  let '(mkL h0 h1 h2 h3 h4) := h in
  let f0 := add64 (Z.lor h0 (shl32 h1 26)) (load32 key 16) in
  let f1 := add64 (Z.lor (shr h1 6) (shl32 h2 20)) (load32 key 20) in
  let f2 := add64 (Z.lor (shr h2 12) (shl32 h3 14)) (load32 key 24) in
  let f3 := add64 (Z.lor (shr h3 18) (shl32 h4 8)) (load32 key 28) in
  let f1' := add64 f1 (shr f0 32) in
  let f2' := add64 f2 (shr f1' 32) in
  let f3' := add64 f3 (shr f2' 32) in
  store32 f0 ++ store32 f1' ++ store32 f2' ++ store32 f3'.

(** poly1305.c:33-162 poly1305_auth: the tag written to [out]. *)
Definition poly1305_auth (m key : list Z) : option (list Z) :=
  match blocks (S (length m)) (clamp_key key) (mkL 0 0 0 0 0) m with
  | None => None
  | Some h => Some (tag_of (freeze h) key)
  end.
