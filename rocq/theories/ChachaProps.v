(** C53: the stream cipher, the one-time authenticator and the packet cipher
    compute what their specifications say, for every input. *)
From Coq Require Import String.
From Verif Require Import Base Bits PolyModel PolySpec PolyProof PolyProof3 ChachaModel ChachaSpec ChachaProof ChachaProof2 ChachaProof3.
Local Open Scope Z_scope.

(** ** Poly1305 *)
(** The limb arithmetic never overflows a word and gives the tag of the
    specification. *)
Theorem C53_poly1305 : forall m key, is_bytes m -> is_bytes key -> zlen key = 32 ->
  exists t, poly1305_auth m key = Some t /\ poly_tag key m t.
Proof. exact poly_ok. Qed.

(** The specification gives one tag. *)
Theorem C53_tag_unique : forall m key a b, poly_tag key m a -> poly_tag key m b -> a = b.
Proof. intros m key a b. apply poly_tag_fun. Qed.

(** RFC 8439, 2.5.2. *)
Definition poly_example_key : list Z :=
  [0x85;0xd6;0xbe;0x78;0x57;0x55;0x6d;0x33;0x7f;0x44;0x52;0xfe;0x42;0xd5;0x06;0xa8;
   0x01;0x03;0x80;0x8a;0xfb;0x0d;0xb2;0xfd;0x4a;0xbf;0xf6;0xaf;0x41;0x49;0xf5;0x1b].
Example C53_poly1305_case :
  poly1305_auth (bs "Cryptographic Forum Research Group") poly_example_key =
  Some [0xa8;0x06;0x1d;0xc1;0x30;0x51;0x36;0xc6;0xc2;0x2b;0x8b;0xaf;0x0c;0x01;0x27;0xa9].
Proof. vm_compute. reflexivity. Qed.
(** A sum just above 2^130 - 5 (RFC 8439, A.3, test vector 7). *)
Example C53_poly1305_wrap :
  poly1305_auth (repeat 255 16 ++ [240] ++ repeat 255 15 ++ [17] ++ repeat 0 15) (1 :: repeat 0 31) =
  Some (5 :: repeat 0 15).
Proof. vm_compute. reflexivity. Qed.

(** ** ChaCha20 *)
(** Key setup, nonce setup and encryption of [m] give the key stream of the
    specification, whatever the context held and whatever was in the scratch
    buffer; the context is left ready for the next block. *)
Theorem C53_chacha20 : forall x key iv co m tmp, wordy x -> is_bytes key -> zlen key = 32 \/ zlen key = 16 ->
  is_bytes iv -> zlen iv = 8 -> (forall c, co = Some c -> is_bytes c /\ zlen c = 8) ->
  is_bytes m -> is_bytes tmp -> zlen tmp = 64 ->
  let ctr := match co with None => 0 | Some c => le c end in
  exists x' c,
    chacha_encrypt_bytes (chacha_ivsetup (chacha_keysetup x key (8 * zlen key)) iv co) m tmp = Some (x', c) /\
    ciphers key iv ctr m c /\
    list_of x' = start_state key (ctr + (zlen m + 63) / 64) iv.
Proof.
  intros x key iv co m tmp W Hk Lk Hi Li Hc Hm Ht Lt ctr.
  pose proof (keysetup_ok x key W Hk Lk) as K. pose proof (ivsetup_ok key _ iv co K Hi Li Hc) as S.
  destruct (encrypt_ok key iv _ _ m tmp (front_len key Hk Lk) Hm Ht Lt S) as (x' & c & E1 & E2 & _ & E3).
  exists x', c. split; [exact E1|]. split; [exact E2|exact (proj2 E3)].
Qed.

(** A long message can be enciphered in pieces of whole blocks. *)
Theorem C53_chacha20_continues : forall key iv ctr a b ca cb, zlen a mod 64 = 0 ->
  ciphers key iv ctr a ca -> ciphers key iv (ctr + zlen a / 64) b cb -> ciphers key iv ctr (a ++ b) (ca ++ cb).
Proof.
  intros key iv ctr a b ca cb M [La Ha] [Lb Hb]. pose proof (zlen_nonneg _ a) as Na. split; [rewrite !zlen_app; lia|].
  intros i Hi. rewrite zlen_app in Hi. destruct (Z_lt_le_dec i (zlen a)).
  - rewrite !app_nth1 by (unfold zlen in *; lia). apply Ha. lia.
  - rewrite !app_nth2 by (unfold zlen in *; lia).
    replace (Z.to_nat i - length ca)%nat with (Z.to_nat (i - zlen a)) by (unfold zlen in *; lia).
    replace (Z.to_nat i - length a)%nat with (Z.to_nat (i - zlen a)) by (unfold zlen in *; lia).
    rewrite Hb by lia. f_equal. unfold keystream. clear - M Na l.
    replace ((i - zlen a) mod 64) with (i mod 64) by (Z.to_euclidean_division_equations; lia).
    replace (ctr + zlen a / 64 + (i - zlen a) / 64) with (ctr + i / 64) by (Z.to_euclidean_division_equations; lia). reflexivity.
Qed.

(** Deciphering is enciphering. *)
Theorem C53_chacha20_inverse : forall key iv ctr m c, ciphers key iv ctr m c -> ciphers key iv ctr c m.
Proof. exact ciphers_inv. Qed.

(** RFC 8439, 2.3.2, read with a 64-bit counter: the first bytes of the block. *)
Example C53_chacha20_case :
  match chacha_encrypt_bytes
      (chacha_ivsetup (chacha_keysetup zero_ctx (map Z.of_nat (seq 0 32)) 256) [0; 0; 0; 0x4a; 0; 0; 0; 0] (Some [1; 0; 0; 0; 0; 0; 0; 9]))
      (repeat 0 20) (repeat 77 64) with
  | Some (_, c) => c = [0x10;0xf1;0xe7;0xe4;0xd1;0x3b;0x59;0x15;0x50;0x0f;0xdd;0x1f;0xa3;0x20;0x71;0xc4;0xc7;0xd1;0xf4;0xc7]
  | None => False
  end.
Proof. vm_compute. reflexivity. Qed.

(** ** The packet cipher *)
(** Contexts reached from a new one by any sequence of calls. *)
Inductive in_use (key : list Z) : chachapoly_ctx -> Prop :=
| use_new : forall mem ctx, chachapoly_new key mem = Some ctx -> in_use key ctx
| use_crypt : forall ctx s src len aadlen (enc : bool) t1 t2 t3, in_use key ctx -> is_bytes src -> 0 <= len -> 0 <= aadlen ->
    len + aadlen + (if enc then 0 else 16) <= zlen src -> len + aadlen < U32 -> junk t1 -> junk t2 -> junk t3 ->
    in_use key (fst (chachapoly_crypt ctx s src len aadlen enc t1 t2 t3))
| use_length : forall ctx s cp t, in_use key ctx -> is_bytes cp -> junk t -> in_use key (fst (chachapoly_get_length ctx s cp t)).

Lemma in_use_ok : forall key ctx, is_bytes key -> in_use key ctx -> good_key key /\ ctx_ok key ctx.
Proof.
  intros key ctx Hk U. induction U as [mem ctx E|ctx s src len aadlen enc t1 t2 t3 U [G IH] Hs Hl Ha Hsum H32 J1 J2 J3|ctx s cp t U [G IH] Hc J].
  - eapply new_ok; eassumption.
  - split; [exact G|]. destruct (crypt_ok key G ctx s src len aadlen enc t1 t2 t3) as (pk & h & c & t & _ & _ & _ & _ & ctx' & C & ->); assumption.
  - split; [exact G|]. destruct (len_ok key G ctx s cp t IH Hc J) as (ctx' & C & [[_ ->]|(_ & p & _ & ->)]); exact C.
Qed.

(** A key of any other length is refused. *)
Theorem C53_key_length : forall key mem ctx, chachapoly_new key mem = Some ctx -> zlen key = 64.
Proof.
  intros key mem ctx E. unfold chachapoly_new in E. destruct (zlen key =? 32 + 32) eqn:L; [|discriminate]. lia.
Qed.

(** Sealing: the packet of the protocol document. *)
Theorem C53_seal : forall key ctx s header payload t1 t2 t3, is_bytes key -> in_use key ctx ->
  is_bytes header -> is_bytes payload -> zlen header + zlen payload < U32 -> junk t1 -> junk t2 -> junk t3 ->
  exists out, snd (chachapoly_crypt ctx s (header ++ payload) (zlen payload) (zlen header) true t1 t2 t3) = CrOk out /\
    sealed key s header payload out.
Proof.
  intros key ctx s hd pl t1 t2 t3 Hk U Hh Hp L J1 J2 J3. destruct (in_use_ok key ctx Hk U) as [G C].
  destruct (crypt_ok key G ctx s (hd ++ pl) (zlen pl) (zlen hd) true t1 t2 t3) as (pk & h & c & t & E1 & E2 & E3 & E4 & ctx' & _ & ->);
    try assumption; try apply zlen_nonneg; try (apply is_bytes_app; now split); try lia.
  { rewrite zlen_app. lia. }
  rewrite ztake_app_exact in E2 by reflexivity. rewrite zdrop_app_exact in E3 by reflexivity. rewrite (ztake_all _ (zlen pl) pl) in E3 by lia.
  exists (h ++ c ++ t). split; [reflexivity|]. exists h, c, t, pk. auto.
Qed.

(** Opening: exactly the sealed packets are opened, to what was sealed, and
    nothing is written for any other. *)
Theorem C53_open : forall key ctx s src aadlen t1 t2 t3, is_bytes key -> in_use key ctx ->
  is_bytes src -> 0 <= aadlen -> aadlen + 16 <= zlen src -> zlen src - 16 < U32 -> junk t1 -> junk t2 -> junk t3 ->
  let r := snd (chachapoly_crypt ctx s src (zlen src - aadlen - 16) aadlen false t1 t2 t3) in
  (forall d, r = CrOk d <-> exists header payload, d = header ++ payload /\ zlen header = aadlen /\ sealed key s header payload src) /\
  (r = CrMac <-> ~ exists header payload, zlen header = aadlen /\ sealed key s header payload src).
Proof.
  intros key ctx s src aadlen t1 t2 t3 Hk U Hs Ha L L32 J1 J2 J3 r. destruct (in_use_ok key ctx Hk U) as [G C].
  destruct (crypt_ok key G ctx s src (zlen src - aadlen - 16) aadlen false t1 t2 t3) as (pk & h & c & t & E1 & E2 & E3 & E4 & ctx' & _ & E);
    try assumption; try lia. unfold r. rewrite E. clear r E. cbn [snd].
  replace (aadlen + (zlen src - aadlen - 16)) with (zlen src - 16) in * by lia.
  set (len := zlen src - aadlen - 16) in *.
  assert (Cut : src = ztake aadlen src ++ ztake len (zdrop aadlen src) ++ ztake 16 (zdrop (zlen src - 16) src)).
  { rewrite (ztake_all _ 16) by (rewrite zlen_zdrop; lia).
    replace (zdrop (zlen src - 16) src) with (zdrop len (zdrop aadlen src)) by (rewrite zdrop_zdrop by lia; f_equal; lia).
    now rewrite !ztake_zdrop. }
  assert (Cut2 : ztake (zlen src - 16) src = ztake aadlen src ++ ztake len (zdrop aadlen src)).
  { rewrite <- (ztake_zdrop _ aadlen (ztake (zlen src - 16) src)). rewrite ztake_ztake by lia. f_equal.
    replace (zlen src - 16) with (len + aadlen) by lia. apply ztake_zdrop_comm; lia. }
  (* what a sealed packet must look like *)
  assert (Inv : forall hd pl, zlen hd = aadlen -> sealed key s hd pl src ->
    hd = h /\ pl = c /\ t = ztake 16 (zdrop (zlen src - 16) src)).
  { intros hd pl Lh (h' & c' & t' & pk' & S1 & S2 & S3 & S4 & S5).
    assert (Lh' : zlen h' = aadlen) by (destruct S2; lia).
    assert (Lt' : zlen t' = 16) by (eapply poly_tag_len; eassumption).
    assert (Lc' : zlen c' = len) by (apply (f_equal zlen) in S1; rewrite !zlen_app in S1; lia).
    assert (Q1 : ztake aadlen src = h') by (rewrite S1; apply ztake_app_exact; lia).
    assert (Q2 : ztake len (zdrop aadlen src) = c') by (rewrite S1, zdrop_app_exact by lia; apply ztake_app_exact; lia).
    assert (Q3 : ztake 16 (zdrop (zlen src - 16) src) = t').
    { rewrite S1 at 2. rewrite app_assoc, zdrop_app_exact by (rewrite zlen_app; lia). apply ztake_all. lia. }
    rewrite Q1 in E2. rewrite Q2 in E3. rewrite Cut2, Q1, Q2 in E4. rewrite Q3.
    assert (pk' = pk) as -> by (eapply ciphers_fun; eassumption).
    split; [eapply ciphers_fun; [apply ciphers_inv; eassumption|exact E2]|].
    split; [eapply ciphers_fun; [apply ciphers_inv; eassumption|exact E3]|]. eapply poly_tag_fun; eassumption. }
  assert (Lh : zlen h = aadlen) by (destruct E2 as [Q _]; rewrite Q, zlen_ztake; lia).
  assert (Make : t = ztake 16 (zdrop (zlen src - 16) src) -> sealed key s h c src).
  { intros Q. exists (ztake aadlen src), (ztake len (zdrop aadlen src)), t, pk. rewrite Q at 1. rewrite Cut2 in E4.
    split; [exact Cut|]. split; [now apply ciphers_inv|]. split; [now apply ciphers_inv|]. split; assumption. }
  destruct (beqb t (ztake 16 (zdrop (zlen src - 16) src))) eqn:Eb.
  - apply beqb_eq in Eb. split.
    + intros d. split.
      * intros Q. injection Q as <-. exists h, c. auto.
      * intros (hd & pl & -> & Q1 & Q2). destruct (Inv hd pl Q1 Q2) as (-> & -> & _). reflexivity.
    + split; [discriminate|]. intros N. exfalso. apply N. exists h, c. auto.
  - apply beqb_neq in Eb. split.
    + intros d. split; [discriminate|]. intros (hd & pl & -> & Q1 & Q2). exfalso. apply Eb. now apply (Inv hd pl).
    + split; [|reflexivity]. intros _ (hd & pl & Q1 & Q2). apply Eb. now apply (Inv hd pl).
Qed.

(** The length field is read before the packet is opened, and is the one that
    was sealed. *)
Theorem C53_length : forall key ctx s header payload out rest cp t, is_bytes key -> in_use key ctx ->
  is_bytes header -> zlen header = 4 -> sealed key s header payload out -> out = cp ++ rest -> is_bytes cp -> junk t ->
  snd (chachapoly_get_length ctx s cp t) = if zlen cp <? 4 then LenShort else LenOk (be_dec header).
Proof.
  intros key ctx s hd pl out rest cp t Hk U Hh Lh (h & c & tg & pk & S1 & S2 & S3 & S4 & S5) -> Hc J.
  destruct (in_use_ok key ctx Hk U) as [G C].
  destruct (len_ok key G ctx s cp t C Hc J) as (ctx' & _ & [[Lc ->]|(Lc & p & Cp & ->)]); cbn [snd].
  - now rewrite (proj2 (Z.ltb_lt _ _) Lc).
  - rewrite (proj2 (Z.ltb_ge _ _) Lc). f_equal. f_equal.
    assert (Lh' : zlen h = 4) by (destruct S2; lia).
    assert (ztake 4 cp = h) as Q.
    { rewrite <- (ztake_app_l _ 4 cp rest) by lia. rewrite S1. apply ztake_app_exact. lia. }
    rewrite Q in Cp. eapply ciphers_fun; [exact Cp|]. now apply ciphers_inv.
Qed.

Lemma le_bytes_bytes : forall n v, is_bytes (le_bytes n v).
Proof.
  induction n as [|n IH]; intros v; cbn [le_bytes]; [constructor|]. constructor; [|apply IH]. unfold is_byte. apply Z.mod_pos_bound. lia.
Qed.
Lemma words_bytes_bytes : forall l, is_bytes (words_bytes l).
Proof.
  induction l as [|w r IH]; cbn [words_bytes]; [constructor|]. apply is_bytes_app. split; [apply le_bytes_bytes|exact IH].
Qed.
Lemma nth_byte : forall l i, is_bytes l -> 0 <= nth i l 0 < 2 ^ 8.
Proof.
  intros l i H. destruct (Nat.lt_ge_cases i (length l)) as [L|L]; [|rewrite nth_overflow by exact L; lia].
  unfold is_bytes in H. rewrite Forall_forall in H. specialize (H _ (nth_In l 0 L)). unfold is_byte in H. lia.
Qed.
Lemma ciphers_bytes : forall key iv ctr m c, is_bytes m -> ciphers key iv ctr m c -> is_bytes c.
Proof.
  intros key iv ctr m c H [L E]. unfold is_bytes. apply Forall_forall. intros b Hb. apply (In_nth _ _ 0) in Hb. destruct Hb as (i & Hi & <-).
  specialize (E (Z.of_nat i)). rewrite Nat2Z.id in E. rewrite E by (unfold zlen in *; lia). unfold is_byte. change 256 with (2 ^ 8).
  apply lxor_small; [lia| |]; apply nth_byte; [exact H|apply words_bytes_bytes].
Qed.
Lemma sealed_bytes : forall key s header payload out, is_bytes header -> is_bytes payload -> sealed key s header payload out -> is_bytes out.
Proof.
  intros key s hd pl out Hh Hp (h & c & t & pk & -> & S2 & S3 & S4 & (bl & _ & ->)).
  apply is_bytes_app. split; [exact (ciphers_bytes _ _ _ _ _ Hh S2)|]. apply is_bytes_app. split; [exact (ciphers_bytes _ _ _ _ _ Hp S3)|apply le_bytes_bytes].
Qed.

(** A packet that is sealed is opened to what was sealed, by contexts with
    different histories. *)
Theorem C53_roundtrip : forall key ctx ctx' s header payload t1 t2 t3 t1' t2' t3', is_bytes key -> in_use key ctx -> in_use key ctx' ->
  is_bytes header -> is_bytes payload -> zlen header + zlen payload < U32 ->
  junk t1 -> junk t2 -> junk t3 -> junk t1' -> junk t2' -> junk t3' ->
  exists out,
    snd (chachapoly_crypt ctx s (header ++ payload) (zlen payload) (zlen header) true t1 t2 t3) = CrOk out /\
    snd (chachapoly_crypt ctx' s out (zlen payload) (zlen header) false t1' t2' t3') = CrOk (header ++ payload).
Proof.
  intros key ctx ctx' s hd pl t1 t2 t3 t1' t2' t3' Hk U U' Hh Hp L J1 J2 J3 J1' J2' J3'.
  destruct (C53_seal key ctx s hd pl t1 t2 t3) as (out & E & S); try assumption. exists out. split; [exact E|].
  assert (Ho : is_bytes out) by (eapply sealed_bytes; [| |exact S]; assumption).
  assert (Lo : zlen out = zlen hd + zlen pl + 16).
  { destruct S as (h & c & tg & pk & -> & S2 & S3 & S4 & S5). rewrite !zlen_app, (poly_tag_len _ _ _ S5). destruct S2, S3. lia. }
  pose proof (zlen_nonneg _ hd). pose proof (zlen_nonneg _ pl).
  destruct (C53_open key ctx' s out (zlen hd) t1' t2' t3') as [O _]; try assumption; try lia.
  replace (zlen out - zlen hd - 16) with (zlen pl) in O by lia. apply O. exists hd, pl. auto.
Qed.

(** A concrete packet: sealed, opened, and refused when changed. *)
Definition ex_key : list Z := map Z.of_nat (seq 0 64).
Definition ex_junk : list Z := repeat 165 64.
Definition ex_ctx : chachapoly_ctx := match chachapoly_new ex_key true with Some c => c | None => CP zero_ctx zero_ctx end.
Definition ex_out : list Z :=
  match chachapoly_crypt ex_ctx 7 ([0; 0; 0; 5] ++ bs "hello") 5 4 true ex_junk ex_junk ex_junk with (_, CrOk o) => o | _ => [] end.
Example C53_case :
  in_use ex_key ex_ctx /\ zlen ex_out = 25 /\
  snd (chachapoly_get_length ex_ctx 7 (ztake 4 ex_out) ex_junk) = LenOk 5 /\
  snd (chachapoly_crypt ex_ctx 7 ex_out 5 4 false ex_junk ex_junk ex_junk) = CrOk ([0; 0; 0; 5] ++ bs "hello") /\
  snd (chachapoly_crypt ex_ctx 8 ex_out 5 4 false ex_junk ex_junk ex_junk) = CrMac.
Proof.
  split; [apply use_new with (mem := true); vm_compute; reflexivity|].
  split; [vm_compute; reflexivity|]. split; [vm_compute; reflexivity|]. split; vm_compute; reflexivity.
Qed.

Print Assumptions C53_poly1305.
Print Assumptions C53_tag_unique.
Print Assumptions C53_chacha20.
Print Assumptions C53_chacha20_continues.
Print Assumptions C53_chacha20_inverse.
Print Assumptions C53_key_length.
Print Assumptions C53_seal.
Print Assumptions C53_open.
Print Assumptions C53_length.
Print Assumptions C53_roundtrip.
