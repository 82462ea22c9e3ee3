(** ChaCha20 (with the original 64-bit counter and 64-bit nonce) and the
    packet cipher chacha20-poly1305@openssh.com, as specified by D. J.
    Bernstein, RFC 8439 (2.1-2.4) and PROTOCOL.chacha20poly1305.  Nothing here
    refers to the model. *)
From Coq Require Import String.
From Verif Require Import Base PolySpec.
Local Open Scope Z_scope.

(** Words of 32 bits in a list. *)
Definition get (i : nat) (l : list Z) : Z := nth i l 0.
Fixpoint set_at (i : nat) (v : Z) (l : list Z) : list Z :=
  match l, i with
  | [], _ => []
  | _ :: r, O => v :: r
  | x :: r, S k => x :: set_at k v r
  end.
Definition rotl (n x : Z) : Z := (x * 2 ^ n + x / 2 ^ (32 - n)) mod 2 ^ 32.

(** [l[a] += l[b]] and [l[d] = (l[d] ^ l[a]) <<< n]. *)
Definition add_to (a b : nat) (l : list Z) : list Z := set_at a ((get a l + get b l) mod 2 ^ 32) l.
Definition mix (d a : nat) (n : Z) (l : list Z) : list Z := set_at d (rotl n (Z.lxor (get d l) (get a l))) l.
Definition quarter (a b c d : nat) (l : list Z) : list Z :=
  let l := mix d a 16 (add_to a b l) in
  let l := mix b c 12 (add_to c d l) in
  let l := mix d a 8 (add_to a b l) in
  mix b c 7 (add_to c d l).

(** Columns, then diagonals; ten times. *)
Definition double_round (l : list Z) : list Z :=
  let l := quarter 0 4 8 12 l in
  let l := quarter 1 5 9 13 l in
  let l := quarter 2 6 10 14 l in
  let l := quarter 3 7 11 15 l in
  let l := quarter 0 5 10 15 l in
  let l := quarter 1 6 11 12 l in
  let l := quarter 2 7 8 13 l in
  quarter 3 4 9 14 l.
Fixpoint sum_words (a b : list Z) : list Z :=
  match a, b with
  | x :: a', y :: b' => (x + y) mod 2 ^ 32 :: sum_words a' b'
  | _, _ => []
  end.
Fixpoint words_bytes (l : list Z) : list Z :=
  match l with
  | [] => []
  | w :: r => le_bytes 4 w ++ words_bytes r
  end.
Definition chacha_block (st : list Z) : list Z := words_bytes (sum_words (Nat.iter 10 double_round st) st).

(** The initial state for a key of 32 bytes (or 16), a counter and a nonce of
    8 bytes. *)
Fixpoint words (l : list Z) : list Z :=
  match l with
  | a :: b :: c :: d :: r => le [a; b; c; d] :: words r
  | _ => []
  end.
Definition start_state (key : list Z) (ctr : Z) (nonce : list Z) : list Z :=
  (if zlen key =? 32 then words (bs "expand 32-byte k") ++ words key
   else words (bs "expand 16-byte k") ++ words key ++ words key)
  ++ [ctr mod 2 ^ 32; (ctr / 2 ^ 32) mod 2 ^ 32] ++ words nonce.

(** Byte [i] of the key stream that starts at block [ctr]. *)
Definition keystream (key nonce : list Z) (ctr i : Z) : Z :=
  nth (Z.to_nat (i mod 64)) (chacha_block (start_state key (ctr + i / 64) nonce)) 0.

(** [c] is [m] enciphered (or deciphered). *)
Definition ciphers (key nonce : list Z) (ctr : Z) (m c : list Z) : Prop :=
  zlen c = zlen m /\
  forall i, 0 <= i < zlen m ->
    nth (Z.to_nat i) c 0 = Z.lxor (nth (Z.to_nat i) m 0) (keystream key nonce ctr i).

(** A sealed packet: PROTOCOL.chacha20poly1305.  [K2] is the first half of the
    key, [K1] the second; the nonce is the sequence number as a uint64. *)
Definition sealed (key : list Z) (seq : Z) (header payload out : list Z) : Prop :=
  let K2 := ztake 32 key in
  let K1 := zdrop 32 key in
  let nonce := be_enc 8 seq in
  exists h c t pk,
    out = h ++ c ++ t /\
    ciphers K1 nonce 0 header h /\
    ciphers K2 nonce 1 payload c /\
    ciphers K2 nonce 0 (repeat 0 32) pk /\
    poly_tag pk (h ++ c) t.
