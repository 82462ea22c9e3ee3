(** Model of chacha.c and cipher-chachapoly.c: the stream cipher with 32-bit
    words, and the authenticated packet cipher built from it.  Buffers are
    lists; source and destination are taken to be equal or disjoint (every
    block is read completely before any of it is written, chacha.c:179-222). *)
From Coq Require Import String.
From Verif Require Import Base PolyModel.
Local Open Scope Z_scope.

(** chacha.h:15-17 struct chacha_ctx: input[0..15]. *)
Record chacha_ctx := St { i0 : Z; i1 : Z; i2 : Z; i3 : Z; i4 : Z; i5 : Z; i6 : Z; i7 : Z; i8 : Z; i9 : Z; i10 : Z; i11 : Z; i12 : Z; i13 : Z; i14 : Z; i15 : Z }.

(** chacha.c:24-25 ROTL32, 41-44 ROTATE, XOR, PLUS, PLUSONE on 32-bit words. *)
Definition ROTATE (v n : Z) : Z := Z.lor (shl32 v n) (shr v (32 - n)).
Definition XOR (v w : Z) : Z := Z.lxor v w.
Definition PLUS (v w : Z) : Z := u32 (v + w).
Definition PLUSONE (v : Z) : Z := PLUS v 1.

(** chacha.c:46-50 QUARTERROUND. *)
Definition QUARTERROUND (a b c d : Z) : Z * Z * Z * Z :=
  let a := PLUS a b in let d := ROTATE (XOR d a) 16 in
  let c := PLUS c d in let b := ROTATE (XOR b c) 12 in
  let a := PLUS a b in let d := ROTATE (XOR d a) 8 in
  let c := PLUS c d in let b := ROTATE (XOR b c) 7 in
  (a, b, c, d).

(** chacha.c:142-149: the body of the round loop. *)
Definition two_rounds (x : chacha_ctx) : chacha_ctx :=
  let '(St x0 x1 x2 x3 x4 x5 x6 x7 x8 x9 x10 x11 x12 x13 x14 x15) := x in
  let '(x0, x4, x8, x12) := QUARTERROUND x0 x4 x8 x12 in
  let '(x1, x5, x9, x13) := QUARTERROUND x1 x5 x9 x13 in
  let '(x2, x6, x10, x14) := QUARTERROUND x2 x6 x10 x14 in
  let '(x3, x7, x11, x15) := QUARTERROUND x3 x7 x11 x15 in
  let '(x0, x5, x10, x15) := QUARTERROUND x0 x5 x10 x15 in
  let '(x1, x6, x11, x12) := QUARTERROUND x1 x6 x11 x12 in
  let '(x2, x7, x8, x13) := QUARTERROUND x2 x7 x8 x13 in
  let '(x3, x4, x9, x14) := QUARTERROUND x3 x4 x9 x14 in
  St x0 x1 x2 x3 x4 x5 x6 x7 x8 x9 x10 x11 x12 x13 x14 x15.

(** chacha.c:124-197 and 205-220: one block.  [j] are j0..j15, [m] the 64
    bytes read; the result is what is written to [c]. *)
Definition block (j : chacha_ctx) (m : list Z) : list Z :=
  let '(St x0 x1 x2 x3 x4 x5 x6 x7 x8 x9 x10 x11 x12 x13 x14 x15) := Nat.iter 10 two_rounds j in
  let '(St j0 j1 j2 j3 j4 j5 j6 j7 j8 j9 j10 j11 j12 j13 j14 j15) := j in
  store32 (XOR (PLUS x0 j0) (load32 m 0)) ++
  store32 (XOR (PLUS x1 j1) (load32 m 4)) ++
  store32 (XOR (PLUS x2 j2) (load32 m 8)) ++
  store32 (XOR (PLUS x3 j3) (load32 m 12)) ++
  store32 (XOR (PLUS x4 j4) (load32 m 16)) ++
  store32 (XOR (PLUS x5 j5) (load32 m 20)) ++
  store32 (XOR (PLUS x6 j6) (load32 m 24)) ++
  store32 (XOR (PLUS x7 j7) (load32 m 28)) ++
  store32 (XOR (PLUS x8 j8) (load32 m 32)) ++
  store32 (XOR (PLUS x9 j9) (load32 m 36)) ++
  store32 (XOR (PLUS x10 j10) (load32 m 40)) ++
  store32 (XOR (PLUS x11 j11) (load32 m 44)) ++
  store32 (XOR (PLUS x12 j12) (load32 m 48)) ++
  store32 (XOR (PLUS x13 j13) (load32 m 52)) ++
  store32 (XOR (PLUS x14 j14) (load32 m 56)) ++
  store32 (XOR (PLUS x15 j15) (load32 m 60)).

(** chacha.c:199-203: the block counter in j12 and j13. *)
Definition bump (j : chacha_ctx) : chacha_ctx :=
  let '(St j0 j1 j2 j3 j4 j5 j6 j7 j8 j9 j10 j11 j12 j13 j14 j15) := j in
  let j12 := PLUSONE j12 in
  let j13 := if j12 =? 0 then PLUSONE j13 else j13 in
  St j0 j1 j2 j3 j4 j5 j6 j7 j8 j9 j10 j11 j12 j13 j14 j15.

(** chacha.c:118-234: the loop.  [tmp] is the uninitialised buffer of line 96,
    so its contents are arbitrary.  The new context differs from the old one
    in input[12] and input[13] only (lines 226-227).  [None] when the fuel
    runs out, which ChachaProof excludes. *)
Fixpoint encrypt_loop (fuel : nat) (j : chacha_ctx) (m tmp : list Z) : option (chacha_ctx * list Z) :=
  match fuel with
  | O => None
  | S k =>
      if zlen m <? 64 then
        Some (bump j, ztake (zlen m) (block j (m ++ zdrop (zlen m) tmp)))
      else
        let out := block j (ztake 64 m) in
        if zlen m <=? 64 then Some (bump j, out)
        else match encrypt_loop k (bump j) (zdrop 64 m) tmp with
             | None => None
             | Some (j', r) => Some (j', out ++ r)
             end
  end.
(** chacha.c:89-236 chacha_encrypt_bytes; [m] has exactly [bytes] bytes. *)
Definition chacha_encrypt_bytes (x : chacha_ctx) (m tmp : list Z) : option (chacha_ctx * list Z) :=
  if zlen m =? 0 then Some (x, []) else encrypt_loop (S (length m)) x m tmp.

(** chacha.c:52-53 sigma and tau. *)
Definition sigma : list Z := bs "expand 32-byte k".
Definition tau : list Z := bs "expand 16-byte k".

(** chacha.c:55-79 chacha_keysetup: input[12..15] are left alone. *)
Definition chacha_keysetup (x : chacha_ctx) (k : list Z) (kbits : Z) : chacha_ctx :=
  let k' := if kbits =? 256 then zdrop 16 k else k in
  let constants := if kbits =? 256 then sigma else tau in
  St (load32 constants 0) (load32 constants 4) (load32 constants 8) (load32 constants 12)
     (load32 k 0) (load32 k 4) (load32 k 8) (load32 k 12)
     (load32 k' 0) (load32 k' 4) (load32 k' 8) (load32 k' 12)
     (i12 x) (i13 x) (i14 x) (i15 x).

(** chacha.c:81-88 chacha_ivsetup; [None] is a NULL counter. *)
Definition chacha_ivsetup (x : chacha_ctx) (iv : list Z) (counter : option (list Z)) : chacha_ctx :=
  St (i0 x) (i1 x) (i2 x) (i3 x) (i4 x) (i5 x) (i6 x) (i7 x) (i8 x) (i9 x) (i10 x) (i11 x)
     (match counter with None => 0 | Some c => load32 c 0 end)
     (match counter with None => 0 | Some c => load32 c 4 end)
     (load32 iv 0) (load32 iv 4).

(** cipher-chachapoly.c:34-36 struct chachapoly_ctx. *)
Record chachapoly_ctx := CP { main_ctx : chacha_ctx; header_ctx : chacha_ctx }.

(** cipher-chachapoly.c:38-50 chachapoly_new: [None] for a key of the wrong
    length or when memory runs out ([mem] false). *)
Definition zero_ctx : chacha_ctx := St 0 0 0 0 0 0 0 0 0 0 0 0 0 0 0 0.
Definition chachapoly_new (key : list Z) (mem : bool) : option chachapoly_ctx :=
  if negb (zlen key =? 32 + 32) then None
  else if negb mem then None
  else Some (CP (chacha_keysetup zero_ctx key 256) (chacha_keysetup zero_ctx (zdrop 32 key) 256)).

(** openbsd-compat/timingsafe_bcmp.c:23-32 on two buffers of equal length. *)
Fixpoint bcmp_acc (ret : Z) (a b : list Z) : Z :=
  match a, b with
  | x :: a', y :: b' => bcmp_acc (Z.lor ret (Z.lxor x y)) a' b'
  | _, _ => ret
  end.
Definition timingsafe_bcmp (a b : list Z) : bool := negb (bcmp_acc 0 a b =? 0).

(** Results of chachapoly_crypt. *)
Inductive crypt_result :=
| CrOk (dest : list Z)      (** 0, with the bytes written to [dest] *)
| CrMac                     (** SSH_ERR_MAC_INVALID; nothing written *)
| CrFuel.                   (** model artefact, excluded by ChachaProof *)

(** sshbuf.h:322-333 POKE_U64. *)
Definition seq_bytes (seqnr : Z) : list Z := be_enc 8 seqnr.
Definition one : list Z := [1; 0; 0; 0; 0; 0; 0; 0].

(** cipher-chachapoly.c:67-121 chachapoly_crypt.  [t1 t2 t3] are what the
    uninitialised buffers of the three cipher calls hold.  The length of the
    data that is authenticated is computed in u_int (lines 89 and 112). *)
Definition chachapoly_crypt (ctx : chachapoly_ctx) (seqnr : Z) (src : list Z) (len aadlen : Z) (do_encrypt : bool)
    (t1 t2 t3 : list Z) : chachapoly_ctx * crypt_result :=
  let seqbuf := seq_bytes seqnr in
  match chacha_encrypt_bytes (chacha_ivsetup (main_ctx ctx) seqbuf None) (repeat 0 32) t1 with
  | None => (ctx, CrFuel)
  | Some (mc, poly_key) =>
      let ctx := CP mc (header_ctx ctx) in
      let checked :=
        if do_encrypt then Some true
        else match poly1305_auth (ztake (u32 (aadlen + len)) src) poly_key with
             | None => None
             | Some expected => Some (negb (timingsafe_bcmp expected (ztake 16 (zdrop (aadlen + len) src))))
             end in
      match checked with
      | None => (ctx, CrFuel)
      | Some false => (ctx, CrMac)
      | Some true =>
          match (if aadlen =? 0 then Some (header_ctx ctx, [])
                 else chacha_encrypt_bytes (chacha_ivsetup (header_ctx ctx) seqbuf None) (ztake aadlen src) t2) with
          | None => (ctx, CrFuel)
          | Some (hc, head) =>
              match chacha_encrypt_bytes (chacha_ivsetup (main_ctx ctx) seqbuf (Some one)) (ztake len (zdrop aadlen src)) t3 with
              | None => (ctx, CrFuel)
              | Some (mc, body) =>
                  let ctx := CP mc hc in
                  let dest := head ++ body in
                  if do_encrypt then
                    match poly1305_auth (ztake (u32 (aadlen + len)) dest) poly_key with
                    | None => (ctx, CrFuel)
                    | Some tag => (ctx, CrOk (dest ++ tag))
                    end
                  else (ctx, CrOk dest)
              end
          end
      end
  end.

(** cipher-chachapoly.c:124-137 chachapoly_get_length: [inl] is an error
    (SSH_ERR_MESSAGE_INCOMPLETE), [inr] the length. *)
Inductive length_result := LenShort | LenOk (n : Z) | LenFuel.
Definition chachapoly_get_length (ctx : chachapoly_ctx) (seqnr : Z) (cp t : list Z) : chachapoly_ctx * length_result :=
  if zlen cp <? 4 then (ctx, LenShort)
  else match chacha_encrypt_bytes (chacha_ivsetup (header_ctx ctx) (seq_bytes seqnr) None) (ztake 4 cp) t with
       | None => (ctx, LenFuel)
       | Some (hc, buf) => (CP (main_ctx ctx) hc, LenOk (be_dec buf))
       end.
