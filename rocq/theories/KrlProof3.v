From Coq Require Import String.
From Verif Require Import Base Bits SshbufModel SshbufSpec SshbufProof WireSpec WireProof Dec MiscNumModel AuthOptModel AuthOptProof BitmapModel BitmapSpec BitmapProof KrlModel KrlSpec KrlProof KrlProof2.
Local Open Scope Z_scope.

(** ** Bitmaps as big integers *)
Lemma bytes_of_pos : forall N, 0 < N -> bytes_of N = (Z.log2 N + 8) / 8.
Proof. intros N H. unfold bytes_of, size_of. replace (N =? 0) with false by lia. f_equal. lia. Qed.
Lemma bytes_range : forall N, 0 < N -> 0 < bytes_of N /\ N < 256 ^ bytes_of N /\ 256 ^ (bytes_of N - 1) <= N.
Proof.
  intros N H. rewrite bytes_of_pos by assumption. pose proof (Z.log2_nonneg N). pose proof (Z.div_mod (Z.log2 N + 8) 8 ltac:(lia)). pose proof (Z.mod_pos_bound (Z.log2 N + 8) 8 ltac:(lia)).
  split; [lia|]. change 256 with (2 ^ 8). rewrite <- !Z.pow_mul_r by lia. split; [apply Z.log2_lt_pow2; lia|apply Z.log2_le_pow2; lia].
Qed.
Lemma bits_blob : forall N, 0 < N -> let v := be_enc (Z.to_nat (bytes_of N)) N in
  is_bytes v /\ zlen v = bytes_of N /\ (forall r, v <> 0 :: r) /\ be_dec v = N.
Proof.
  intros N H v. destruct (bytes_range N H) as (B0 & B1 & B2). unfold v. split; [apply be_enc_bytes|]. split; [rewrite zlen_be_enc; lia|]. split.
  - intros r Hr. destruct (Z.to_nat (bytes_of N)) as [|m] eqn:Em; [lia|]. rewrite be_enc_head in Hr. injection Hr as Hh _.
    replace (bytes_of N) with (Z.of_nat m + 1) in * by lia. replace (Z.of_nat m + 1 - 1) with (Z.of_nat m) in B2 by lia.
    assert (P : 0 < 256 ^ Z.of_nat m) by (apply Z.pow_pos_nonneg; lia).
    assert (1 <= N / 256 ^ Z.of_nat m) by (apply Z.div_le_lower_bound; lia).
    assert (N / 256 ^ Z.of_nat m < 256). { apply Z.div_lt_upper_bound; [lia|]. rewrite Z.pow_add_r in B1 by lia. change (256 ^ 1) with 256 in B1. lia. }
    rewrite Z.mod_small in Hh by lia. lia.
  - apply be_dec_enc_id. rewrite Z2Nat.id by lia. lia.
Qed.
Lemma get_bignum_enc : forall N rest, 0 < N -> let v := be_enc (Z.to_nat (bytes_of N)) N in
  zlen (mpint_body v) <= 134217724 ->
  get_bignum (enc_mpint v ++ rest) = if bytes_of N <=? 2048 then Some (v, rest) else None.
Proof.
  intros N rest H v L. destruct (bits_blob N H) as (A & B & C & _). fold v in A, B, C. unfold get_bignum. destruct (bytes_of N <=? 2048) eqn:E.
  - pose proof (dec_enc (WMpint v) rest) as K. cbn [wvalid dec enc got] in K. destruct (dec_mpint (enc_mpint v ++ rest)) as [[v' r']|e].
    + assert (K' : ROk (VBytes v', r') = ROk (VBytes v, rest)) by (apply K; split; [exact A|split; [lia|exact C]]). injection K' as -> ->. reflexivity.
    + assert (K' : (RErr e : res (rv * list Z)) = ROk (VBytes v, rest)) by (apply K; split; [exact A|split; [lia|exact C]]). discriminate.
  - unfold dec_mpint, enc_mpint. rewrite dec_string_ok; [|change (SSHBUF_SIZE_MAX - 4) with 134217724; exact L].
    destruct (msb (mpint_body v)) eqn:M; [reflexivity|].
    assert (HB : mpint_body v = if msb v then 0 :: v else v) by (unfold mpint_body; now rewrite strip0_id).
    assert (BL : SSHBUF_MAX_BIGNUM = 2048) by reflexivity. rewrite BL.
    replace ((2048 + 1 <? zlen (mpint_body v)) || (zlen (mpint_body v) =? 2048 + 1) && negb (hd 0 (mpint_body v) =? 0)) with true; [reflexivity|].
    symmetry. rewrite HB. destruct (msb v).
    + rewrite zlen_cons. replace (2048 + 1 <? zlen v + 1) with true by lia. reflexivity.
    + destruct (2048 + 1 <? zlen v) eqn:E2; [reflexivity|]. cbn [orb]. replace (zlen v =? 2048 + 1) with true by lia. cbn [andb].
      destruct v as [|x r]; [change (zlen (@nil Z)) with 0 in B; lia|]. cbn [hd]. destruct (x =? 0) eqn:Ex; [|reflexivity]. exfalso. apply (C r). f_equal. lia.
Qed.

(** ** Subsections *)
Inductive sub := SubList (ss : list Z) | SubRange (lo hi : Z) | SubBits (start N : Z).
Definition sub_type (s : sub) : Z := match s with SubList _ => CERT_SERIAL_LIST | SubRange _ _ => CERT_SERIAL_RANGE | SubBits _ _ => CERT_SERIAL_BITMAP end.
Definition enc_serials (ss : list Z) : list Z := concat (map (be_enc 8) ss).
Definition sub_body (s : sub) : list Z :=
  match s with
  | SubList ss => enc_serials ss
  | SubRange lo hi => be_enc 8 lo ++ be_enc 8 hi
  | SubBits start N => be_enc 8 start ++ enc_mpint (be_enc (Z.to_nat (bytes_of N)) N)
  end.
Definition sub_set (s : sub) (x : Z) : Prop :=
  match s with
  | SubList ss => In x ss
  | SubRange lo hi => lo <= x <= hi
  | SubBits start N => start <= x /\ Z.testbit N (x - start) = true
  end.
Definition bits_ok (start N : Z) : Prop := 1 <= start /\ 0 < N /\ Z.testbit N 0 = true /\ Z.log2 N <= 16777216 /\ start + Z.log2 N < U64.
Definition sub_ok (s : sub) : Prop :=
  match s with
  | SubList ss => Forall (fun x => 1 <= x < U64) ss
  | SubRange lo hi => 1 <= lo /\ lo <= hi < U64
  | SubBits start N => bits_ok start N
  end /\ zlen (sub_body s) <= 134217724.
(** The section a reader accepts. *)
Definition sub_small (s : sub) : Prop := match s with SubBits _ N => bytes_of N <= 2048 | _ => True end.
Definition enc_sub (s : sub) : list Z := be_enc 1 (sub_type s) ++ enc_string (sub_body s).
Definition enc_subs (l : list sub) : list Z := concat (map enc_sub l).
Definition subs_set (l : list sub) (x : Z) : Prop := exists s, In s l /\ sub_set s x.
Lemma enc_subs_snoc : forall l s, enc_subs (l ++ [s]) = enc_subs l ++ enc_sub s.
Proof. intros l s. unfold enc_subs. rewrite map_app, concat_app. cbn [map concat]. now rewrite app_nil_r. Qed.
Lemma subs_set_snoc : forall l s x, subs_set (l ++ [s]) x <-> subs_set l x \/ sub_set s x.
Proof.
  intros l s x. unfold subs_set. split.
  - intros (y & H & Q). apply in_app_or in H. destruct H as [H|[<- |[]]]; [left; now exists y|now right].
  - intros [(y & H & Q)|Q]; [exists y|exists s]; (split; [apply in_or_app; cbn [In]; auto|exact Q]).
Qed.

(** ** The writer *)
Lemma u64_mod : forall x, u64 (u64 x) = u64 x.
Proof. intros x. unfold u64. apply Z.mod_mod. discriminate. Qed.
Lemma put_serials_some : forall n lo i m b', put_serials n lo i m = Some b' -> exists b, m = Some b /\ b' = b ++ enc_serials (map (fun j => u64 (lo + i + Z.of_nat j)) (seq 0 n)).
Proof.
  induction n as [|n IH]; intros lo i m b' H; cbn [put_serials] in H.
  - exists b'. unfold enc_serials. cbn. now rewrite app_nil_r.
  - apply IH in H as (b & H & ->). unfold put_u64 in H. apply put_some in H as (b0 & -> & ->). exists b0. split; [reflexivity|].
    rewrite u64_mod. cbn [seq map]. unfold enc_serials. cbn [map concat]. rewrite <- app_assoc. f_equal. f_equal.
    + f_equal. f_equal. lia.
    + rewrite <- seq_shift, !map_map. f_equal. apply map_ext. intros j. f_equal. f_equal. lia.
Qed.

(** Bits lo-start .. hi-start are added. *)
Lemma set_bits_some : forall n b N lo i start b', inv b N -> 0 <= lo + i - start < U32 -> lo + i - start + Z.of_nat n < U64 ->
  set_bits n b lo i start = Some b' ->
  exists N', inv b' N' /\ (n = O \/ lo + i - start + Z.of_nat n - 1 <= 16777216) /\
    (forall x, 0 <= x -> Z.testbit N' x = Z.testbit N x || ((lo + i - start <=? x) && (x <? lo + i - start + Z.of_nat n))).
Proof.
  induction n as [|n IH]; intros b N lo i start b' I R R2 H; cbn [set_bits] in H.
  - injection H as <-. exists N. split; [exact I|]. split; [now left|]. intros x Hx. replace ((lo + i - start <=? x) && (x <? lo + i - start + Z.of_nat 0)) with false by lia. now rewrite Bool.orb_false_r.
  - rewrite u64_id in H by (unfold U64, U32 in *; lia). rewrite u32_id in H by exact R.
    destruct (set_spec true b N (lo + i - start) I R) as (ok & b1 & E & Q). rewrite E in H. destruct ok; [|discriminate]. destruct Q as [Q1 Q2].
    change LIM with 16777216 in Q1.
    apply (IH b1 (Z.setbit N (lo + i - start)) lo (i + 1) start b') in H; [|exact Q2|unfold U32; lia|lia].
    destruct H as (N' & I' & B & T). exists N'. split; [exact I'|]. split; [right; destruct B as [-> |B]; lia|].
    intros x Hx. rewrite T by assumption. rewrite Z.setbit_eqb by lia. destruct (Z.testbit N x); [now rewrite Bool.orb_true_r|]. rewrite Bool.orb_false_r. cbn [orb].
    destruct (lo + i - start =? x) eqn:Ex; cbn [orb]; lia.
Qed.

(** What the writer holds between rounds: the finished subsections, and the
    unfinished one. *)
Definition pending (g : gst) (p : option sub) : Prop :=
  match p with
  | None => g_state g = 0
  | Some (SubList ss) => g_state g = CERT_SERIAL_LIST /\ g_sect g = enc_serials ss /\ Forall (fun x => 1 <= x < U64) ss
  | Some (SubRange lo hi) => g_state g = CERT_SERIAL_RANGE /\ g_sect g = be_enc 8 lo ++ be_enc 8 hi /\ 1 <= lo /\ lo <= hi < U64
  | Some (SubBits start N) => g_state g = CERT_SERIAL_BITMAP /\ g_sect g = be_enc 8 start /\ g_start g = start /\ bits_ok start N /\ start + Z.log2 N <= g_last g /\
      exists b, g_bm g = Some b /\ inv b N
  end.
Definition opt_set (p : option sub) (x : Z) : Prop := match p with Some s => sub_set s x | None => False end.
Record ginv (hdr : list Z) (g : gst) (S : Z -> Prop) : Prop := {
  gi : exists subs p, g_buf g = hdr ++ enc_subs subs /\ Forall sub_ok subs /\ pending g p /\ (forall x, S x <-> subs_set subs x \/ opt_set p x) }.

Lemma put_bitmap_some : forall b N m b', inv b N -> 0 < N -> put_bitmap b m = Some b' -> exists b0, m = Some b0 /\ b' = b0 ++ enc_mpint (be_enc (Z.to_nat (bytes_of N)) N).
Proof.
  intros b N m b' I P H. unfold put_bitmap in H. destruct (nbytes_spec b N I) as (b1 & E & I1 & _ & B0 & _). rewrite E in H.
  destruct (to_string_spec b1 N (repeat 0 (Z.to_nat (bytes_of N))) I1) as (b2 & ok & p' & E2 & _ & Q).
  assert (L : zlen (repeat 0 (Z.to_nat (bytes_of N))) = bytes_of N) by (unfold zlen; rewrite repeat_length; lia).
  rewrite L, Z.ltb_irrefl in Q. destruct Q as [-> ->]. rewrite E2 in H. rewrite zdrop_all, app_nil_r in H by lia.
  unfold put_bignum in H. destruct (SSHBUF_SIZE_MAX - 5 <? _); [discriminate|]. now apply put_some in H.
Qed.
Lemma flush_some : forall g p buf, pending g (Some p) -> flush g = Some buf -> sub_ok p /\ buf = g_buf g ++ enc_sub p.
Proof.
  intros g p buf P H. unfold flush in H.
  assert (Fin : forall sect, sect = sub_body p -> g_state g = sub_type p -> put_str sect (put_u8 (g_state g) (Some (g_buf g))) = Some buf -> zlen (sub_body p) <= 134217724 /\ buf = g_buf g ++ enc_sub p).
  { intros sect -> E K. apply put_str_some in K as (L & b0 & K & ->). split; [exact L|]. unfold put_u8 in K. apply put_some in K as (b1 & K & ->). injection K as <-.
    unfold enc_sub. rewrite <- app_assoc. rewrite E. rewrite u8_id; [reflexivity|]. destruct p; vm_compute; intuition discriminate. }
  unfold sub_ok. destruct p as [ss|lo hi|start N]; cbn [pending] in P.
  - destruct P as (E1 & E2 & E3). rewrite E1 in H. change (CERT_SERIAL_LIST =? CERT_SERIAL_BITMAP) with false in H. cbv iota in H. rewrite <- E1 in H.
    destruct (Fin (g_sect g) E2 E1 H) as [F1 F2]. auto.
  - destruct P as (E1 & E2 & E3). rewrite E1 in H. change (CERT_SERIAL_RANGE =? CERT_SERIAL_BITMAP) with false in H. cbv iota in H. rewrite <- E1 in H.
    destruct (Fin (g_sect g) E2 E1 H) as [F1 F2]. auto.
  - destruct P as (E1 & E2 & E3 & E4 & _ & b & E5 & E6). rewrite E1, Z.eqb_refl, E5 in H. destruct (put_bitmap b (Some (g_sect g))) as [sect|] eqn:Es; [|discriminate].
    assert (0 < N) by apply E4. apply (put_bitmap_some b N) in Es; [|exact E6|assumption]. destruct Es as (b0 & Q & ->). injection Q as <-. rewrite <- E1 in H.
    destruct (Fin (g_sect g ++ enc_mpint (be_enc (Z.to_nat (bytes_of N)) N))) as [F1 F2]; [now rewrite E2|exact E1|exact H|]. auto.
Qed.
Lemma choose_states : forall c n f l x, exists next force, choose_next_state c n f l x = (next, force) /\ (next = CERT_SERIAL_LIST \/ next = CERT_SERIAL_RANGE \/ next = CERT_SERIAL_BITMAP).
Proof.
  intros c n f l x. unfold choose_next_state. cbv zeta.
  destruct (if c =? CERT_SERIAL_LIST then _ else _) as [[cl cb] cbr]. 
  repeat match goal with |- context [if ?a <? ?b then _ else _] => destruct (a <? b) end; eexists; eexists; (split; [reflexivity|auto]).
Qed.
Lemma serials_in : forall lo hi x, 1 <= lo -> lo <= hi < U64 -> In x (map (fun j => u64 (lo + 0 + Z.of_nat j)) (seq 0 (Z.to_nat (u64 (1 + (hi - lo)))))) <-> lo <= x <= hi.
Proof.
  intros lo hi x A B. rewrite u64_id by lia. rewrite in_map_iff. split.
  - intros (j & <- & H). apply in_seq in H. rewrite u64_id by lia. lia.
  - intros H. exists (Z.to_nat (x - lo)). split; [rewrite u64_id by lia; lia|]. apply in_seq. lia.
Qed.
Lemma pending_state : forall g p, pending g (Some p) -> g_state g <> 0.
Proof. intros g [ss|lo hi|st N]; cbn [pending]; intros (E & _); rewrite E; discriminate. Qed.
Lemma enc_serials_app : forall a b, enc_serials (a ++ b) = enc_serials a ++ enc_serials b.
Proof. intros a b. unfold enc_serials. now rewrite map_app, concat_app. Qed.

Lemma gen_round_inv : forall hdr g S rs nrs g', ginv hdr g S -> (g_state g = 0 \/ g_last g < fst rs) -> 1 <= fst rs -> fst rs <= snd rs < U64 ->
  gen_round g rs nrs = Some g' -> ginv hdr g' (fun x => S x \/ fst rs <= x <= snd rs) /\ g_last g' = snd rs.
Proof.
  intros hdr g S [lo hi] nrs g' G Last A B H. cbn [fst snd] in *. destruct G as [(subs & p & Eb & Ok & P & Iff)].
  unfold gen_round in H. cbn [fst snd] in H. set (contig := u64 (1 + (hi - lo))) in *. cbv zeta in H.
  match type of H with context [choose_next_state ?a ?b ?c ?d ?e] => destruct (choose_states a b c d e) as (next & force & Ec & Nx) end.
  rewrite Ec in H. clear Ec.
  set (finish := negb (g_state g =? 0) && (force || negb (next =? g_state g) || (g_state g =? CERT_SERIAL_RANGE))) in *.
  destruct (if finish then flush g else Some (g_buf g)) as [buf|] eqn:Ef; [|discriminate].
  (* The finished sections, and what remains pending. *)
  assert (D : exists subs1 p1, buf = hdr ++ enc_subs subs1 /\ Forall sub_ok subs1 /\ (forall x, S x <-> subs_set subs1 x \/ opt_set p1 x) /\
     match p1 with None => finish = true \/ g_state g = 0 | Some s => finish = false /\ pending g (Some s) end).
  { destruct finish eqn:Fin.
    - destruct p as [s|].
      + destruct (flush_some g s buf P Ef) as [F1 F2]. exists (subs ++ [s]), None. split; [rewrite F2, Eb, enc_subs_snoc; now rewrite app_assoc|].
        split; [apply Forall_app; split; [exact Ok|constructor; [exact F1|constructor]]|]. split; [|now left]. intros x. rewrite subs_set_snoc, Iff. cbn [opt_set]. tauto.
      + cbn [pending] in P. unfold finish in Fin. rewrite P in Fin. discriminate.
    - injection Ef as <-. destruct p as [s|].
      + exists subs, (Some s). repeat split; auto; apply Iff.
      + exists subs, None. cbn [pending] in P. repeat split; auto; apply Iff. }
  clear Eb Ok P Iff Ef p subs. destruct D as (subs & p & Eb & Ok & Iff & P).
  set (sect0 := if finish then [] else g_sect g) in *. set (bm0 := if finish then None else g_bm g) in *.
  assert (Cont : Z.of_nat (Z.to_nat contig) = 1 + (hi - lo)) by (unfold contig; rewrite u64_id by lia; lia).
  (* A pending section that survives has the same kind as the next one. *)
  assert (Keep : forall s, p = Some s -> next = sub_type s /\ force = false /\ (forall a b, s <> SubRange a b)).
  { intros s ->. destruct P as [F P]. pose proof (pending_state _ _ P) as Nz. unfold finish in F. destruct (g_state g =? 0) eqn:E0; [lia|]. cbn [negb andb] in F.
    apply Bool.orb_false_iff in F as [F F3]. apply Bool.orb_false_iff in F as [F1 F2]. apply Bool.negb_false_iff, Z.eqb_eq in F2.
    split; [|split; [exact F1|]].
    - rewrite F2. destruct s as [ss|a b|st N]; cbn [pending sub_type] in *; apply P.
    - intros a b ->. cbn [pending] in P. destruct P as [P _]. rewrite P in F3. discriminate. }
  assert (New : p = None -> (negb (next =? g_state g) || force) = true \/ next = CERT_SERIAL_RANGE /\ sect0 = [] /\ finish = true).
  { intros ->. destruct (negb (next =? g_state g)) eqn:E1; [now left|]. destruct force eqn:E2; [now left|]. right. apply Bool.negb_false_iff, Z.eqb_eq in E1.
    destruct P as [F|P].
    - pose proof F as F'. unfold finish in F. apply andb_prop in F as [_ F]. cbn [orb] in F. apply Z.eqb_eq in F. unfold sect0. split; [congruence|]. split; [now rewrite F'|exact F'].
    - exfalso. rewrite P in E1. destruct Nx as [-> |[-> | ->]]; discriminate. }
  (* One new section from nothing, or an addition to the pending one. *)
  destruct Nx as [-> |[-> | ->]].
  - (* list *)
    change (CERT_SERIAL_LIST =? CERT_SERIAL_BITMAP) with false in H. cbv iota in H.
    assert (R : exists ss bm, (forall x, opt_set p x <-> In x ss) /\ Forall (fun x => 1 <= x < U64) ss /\
      (if negb (CERT_SERIAL_LIST =? g_state g) || force then Some ([], bm0, g_start g) else Some (sect0, bm0, g_start g)) = Some (enc_serials ss, bm, g_start g)).
    { destruct p as [s|].
      - destruct (Keep s eq_refl) as (K1 & K2 & K3). destruct s as [ss|a b|st N]; try discriminate. destruct P as (F & P1 & P2 & P3). exists ss, bm0. split; [intros x; reflexivity|]. split; [exact P3|].
        rewrite P1, K2. change (CERT_SERIAL_LIST =? CERT_SERIAL_LIST) with true. cbn [negb orb]. unfold sect0. now rewrite F, P2.
      - exists [], bm0. split; [intros x; cbn [opt_set In]; tauto|]. split; [constructor|]. destruct (New eq_refl) as [N|(N & _)]; [|discriminate]. now rewrite N. }
    destruct R as (ss & bm & R1 & R2 & R3). rewrite R3 in H. change (CERT_SERIAL_LIST =? CERT_SERIAL_LIST) with true in H. cbv iota in H.
    destruct (put_serials (Z.to_nat contig) lo 0 (Some (enc_serials ss))) as [s|] eqn:Ep; [|discriminate]. injection H as <-.
    apply put_serials_some in Ep as (b0 & Q & ->). injection Q as <-. split; [|reflexivity]. constructor.
    set (new := map (fun j => u64 (lo + 0 + Z.of_nat j)) (seq 0 (Z.to_nat contig))).
    exists subs, (Some (SubList (ss ++ new))). split; [exact Eb|]. split; [exact Ok|]. split.
    + cbn [pending g_state g_sect]. split; [reflexivity|]. split; [now rewrite enc_serials_app|]. apply Forall_app. split; [exact R2|]. rewrite Forall_forall. intros x Hx. apply serials_in in Hx; lia.
    + intros x. cbn [opt_set sub_set]. rewrite in_app_iff, Iff, R1. unfold new, contig. rewrite serials_in by lia. tauto.
  - (* range *)
    change (CERT_SERIAL_RANGE =? CERT_SERIAL_BITMAP) with false in H. cbv iota in H.
    assert (p = None) as ->. { destruct p as [s|]; [|reflexivity]. exfalso. destruct (Keep s eq_refl) as (K1 & _ & K3). destruct s as [ss|a b|st N]; try discriminate. now apply (K3 a b). }
    assert (R : exists bm, (if negb (CERT_SERIAL_RANGE =? g_state g) || force then Some ([], bm0, g_start g) else Some (sect0, bm0, g_start g)) = Some ([], bm, g_start g)).
    { exists bm0. destruct (New eq_refl) as [N|(_ & N & _)]; [now rewrite N|]. rewrite N. now destruct (negb _ || force). }
    destruct R as (bm & R). rewrite R in H. change (CERT_SERIAL_RANGE =? CERT_SERIAL_LIST) with false in H. change (CERT_SERIAL_RANGE =? CERT_SERIAL_RANGE) with true in H. cbv iota in H.
    destruct (put_u64 hi (put_u64 lo (Some []))) as [s|] eqn:Ep; [|discriminate]. injection H as <-. split; [|reflexivity]. constructor.
    unfold put_u64 in Ep. apply put_some in Ep as (b1 & Ep & ->). apply put_some in Ep as (b2 & Ep & ->). injection Ep as <-.
    exists subs, (Some (SubRange lo hi)). split; [exact Eb|]. split; [exact Ok|]. split.
    + cbn [pending g_state g_sect]. rewrite !u64_id by lia. split; [reflexivity|]. split; [reflexivity|]. auto.
    + intros x. cbn [opt_set sub_set]. rewrite Iff. cbn [opt_set]. tauto.
  - (* bitmap *)
    change (CERT_SERIAL_BITMAP =? CERT_SERIAL_BITMAP) with true in H. cbv iota in H.
    assert (R : exists start N b, (forall x, opt_set p x <-> start <= x /\ Z.testbit N (x - start) = true) /\ 1 <= start <= lo /\ inv b N /\ 0 <= N /\
      (N = 0 /\ start = lo \/ bits_ok start N /\ start + Z.log2 N < lo) /\
      (if negb (CERT_SERIAL_BITMAP =? g_state g) || force then match put_u64 lo (Some []) with Some s => Some (s, Some bitmap_new, lo) | None => None end else Some (sect0, bm0, g_start g))
        = Some (be_enc 8 start, Some b, start)).
    { destruct p as [s|].
      - destruct (Keep s eq_refl) as (K1 & K2 & K3). destruct s as [ss|a b|st N]; try discriminate. destruct P as (F & P1 & P2 & P3 & P4 & P5 & b & P6 & P7).
        exists st, N, b. pose proof P4 as (Q1 & Q2 & Q3 & Q4 & Q5). pose proof (Z.log2_nonneg N).
        assert (g_last g < lo) by (destruct Last as [L|L]; [rewrite P1 in L; discriminate|exact L]).
        split; [intros x; reflexivity|]. split; [lia|]. split; [exact P7|]. split; [lia|]. split; [right; split; [exact P4|lia]|].
        rewrite P1, K2. change (CERT_SERIAL_BITMAP =? CERT_SERIAL_BITMAP) with true. cbn [negb orb]. unfold sect0, bm0. now rewrite F, P2, P6, P3.
      - exists lo, 0, bitmap_new. split; [intros x; cbn [opt_set]; rewrite Z.bits_0; intuition discriminate|]. split; [lia|]. split; [exact inv_new|]. split; [lia|]. split; [now left|].
        destruct (New eq_refl) as [N|(N & _)]; [|discriminate]. rewrite N. unfold put_u64. rewrite u64_id by lia. unfold put.
        replace (SSHBUF_SIZE_MAX <? zlen [] + zlen (be_enc 8 lo)) with false; [reflexivity|]. symmetry. rewrite zlen_be_enc. reflexivity. }
    destruct R as (start & N & b & R1 & R2 & R3 & R4 & R5 & R6). rewrite R6 in H. clear R6.
    change (CERT_SERIAL_BITMAP =? CERT_SERIAL_LIST) with false in H. change (CERT_SERIAL_BITMAP =? CERT_SERIAL_RANGE) with false in H. cbv iota in H.
    rewrite (u64_id (lo - start)) in H by lia. destruct (INT_MAX <? lo - start) eqn:Ei; [discriminate|].
    destruct (set_bits (Z.to_nat contig) b lo 0 start) as [b'|] eqn:Es; [|discriminate]. injection H as <-. split; [|reflexivity]. constructor.
    apply (set_bits_some (Z.to_nat contig) b N lo 0 start b' R3) in Es; [|change INT_MAX with 2147483647 in Ei; unfold U32; lia|rewrite Cont; lia].
    destruct Es as (N' & I' & Lim & T). rewrite Cont in *. destruct Lim as [Lim|Lim]; [lia|].
    assert (N0 : 0 <= N') by (destruct I' as (_ & W & V & _); rewrite <- V; now apply val_nonneg).
    destruct (log2_char N' (hi - start)) as [C1 C2]; [exact N0|lia|rewrite T by lia; apply Bool.orb_true_iff; right; lia| |].
    { intros i Hi. rewrite T by lia. apply Bool.orb_false_iff. split; [|lia]. destruct R5 as [[-> _]|[R5 R6]]; [apply Z.bits_0|]. apply Z.bits_above_log2; lia. }
    exists subs, (Some (SubBits start N')). split; [exact Eb|]. split; [exact Ok|]. split.
    + cbn [pending g_state g_sect g_start g_last g_bm]. split; [reflexivity|]. split; [reflexivity|]. split; [reflexivity|]. split; [|split; [lia|exists b'; auto]].
      unfold bits_ok. rewrite C2. split; [lia|]. split; [lia|]. split; [|split; lia].
      rewrite T by lia. destruct R5 as [[-> R5]|[R5 _]]; [rewrite Z.bits_0; cbn [orb]; lia|]. destruct R5 as (_ & _ & R5 & _). rewrite R5. reflexivity.
    + intros x. cbn [opt_set sub_set]. rewrite Iff, R1. split.
      * intros [[Q|[Q1 Q2]]|Q]; [now left|right|right]; (split; [lia|]); rewrite T by lia; apply Bool.orb_true_iff; [left; exact Q2|right; lia].
      * intros [Q|[Q1 Q2]]; [left; now left|]. rewrite T in Q2 by lia. apply Bool.orb_true_iff in Q2 as [Q2|Q2]; [left; right; auto|right; lia].
Qed.
Lemma gen_rounds_inv : forall l hdr g S m g', ginv hdr g S -> chain m l -> 1 <= m -> (g_state g = 0 \/ g_last g < m) ->
  gen_rounds g l = Some g' -> ginv hdr g' (fun x => S x \/ inr x l).
Proof.
  induction l as [|e l IH]; intros hdr g S m g' G C M La H; cbn [gen_rounds] in H.
  - injection H as <-. destruct G as [(subs & p & Q1 & Q2 & Q3 & Q4)]. constructor. exists subs, p. split; [exact Q1|]. split; [exact Q2|]. split; [exact Q3|]. intros x. rewrite <- Q4.
    split; [intros [Q|Q]; [exact Q|now apply inr_nil in Q]|now left].
  - destruct (gen_round g e (hd_error l)) as [g1|] eqn:E; [|discriminate]. cbn [chain] in C. destruct C as (C1 & C2 & C3 & C4).
    apply (gen_round_inv hdr g S) in E; [|exact G|lia|lia|lia]. destruct E as [E1 E2].
    apply (IH hdr g1 _ (snd e + 2) g' E1 C4) in H; [|lia|right; lia].
    destruct H as [(subs & p & Q1 & Q2 & Q3 & Q4)]. constructor. exists subs, p. split; [exact Q1|]. split; [exact Q2|]. split; [exact Q3|]. intros x. rewrite <- Q4, inr_cons. tauto.
Qed.
Lemma put_strs_all : forall l m, put_strs l m = put_all l m.
Proof. induction l as [|x l IH]; intros m; [reflexivity|]. cbn [put_strs put_all]. apply IH. Qed.
Lemma put_section_some : forall t l m b', put_section t (put_strs l (Some [])) m = Some b' ->
  small l /\ exists b, m = Some b /\ b' = b ++ (if match l with [] => true | _ => false end then [] else be_enc 1 (u8 t) ++ enc_string (enc_all l)) /\ (l <> [] -> zlen (enc_all l) <= 134217724).
Proof.
  intros t l m b' H. rewrite put_strs_all in H. destruct (put_all l (Some [])) as [sect|] eqn:E; [|discriminate]. apply put_all_some in E as (Sm & b0 & Q & ->). injection Q as <-. cbn [app] in H.
  split; [exact Sm|]. destruct l as [|x r].
  - cbn in H. exists b'. rewrite app_nil_r. split; [exact H|]. split; [reflexivity|]. intros K. now destruct K.
  - destruct (enc_all (x :: r)) as [|c s] eqn:Ee.
    { exfalso. unfold enc_all in Ee. cbn [map concat] in Ee. unfold enc_string in Ee. apply (f_equal (@zlen Z)) in Ee. rewrite !zlen_app, zlen_be_enc in Ee.
      pose proof (zlen_nonneg Z x). pose proof (zlen_nonneg Z (concat (map (fun v => be_enc 4 (zlen v) ++ v) r))). change (zlen (@nil Z)) with 0 in Ee. unfold zlen in *. lia. }
    cbn [put_section] in H. apply put_str_some in H as (L & b1 & H & ->). unfold put_u8 in H. apply put_some in H as (b2 & -> & ->). exists b2. split; [reflexivity|].
    split; [now rewrite <- app_assoc|]. intros _. exact L.
Qed.
Definition ids_part (l : list (list Z)) : list Z := match l with [] => [] | _ => be_enc 1 CERT_KEY_ID ++ enc_string (enc_all l) end.
Lemma generate_some : forall rc buf, chain 1 (rc_serials rc) -> revoked_certs_generate rc = Some buf ->
  exists subs, let ca := match rc_ca rc with None => [] | Some b => b end in
    buf = enc_string ca ++ enc_string [] ++ enc_subs subs ++ ids_part (rc_ids rc) /\ zlen ca <= 134217724 /\
    Forall sub_ok subs /\ (forall x, inr x (rc_serials rc) <-> subs_set subs x) /\ small (rc_ids rc) /\ (rc_ids rc <> [] -> zlen (enc_all (rc_ids rc)) <= 134217724).
Proof.
  intros rc buf C H. unfold revoked_certs_generate in H. set (ca := match rc_ca rc with None => [] | Some b => b end) in *.
  destruct (put_str [] (put_str ca (Some []))) as [hdr|] eqn:Eh; [|discriminate]. apply put_str_some in Eh as (_ & b0 & Eh & ->). apply put_str_some in Eh as (Lc & b1 & Eh & ->). injection Eh as <-. change ([] ++ enc_string ca) with (enc_string ca) in H.
  set (hdr := enc_string ca ++ enc_string []) in *.
  destruct (gen_rounds (mkG 0 [] None 0 0 hdr) (rc_serials rc)) as [g|] eqn:Eg; [|discriminate].
  apply (gen_rounds_inv _ hdr _ (fun _ => False) 1 g) in Eg; [|constructor; exists [], None; cbn [g_buf enc_subs map concat]; rewrite app_nil_r|exact C|lia|now left].
  2:{ split; [reflexivity|]. split; [constructor|]. split; [reflexivity|]. intros x. cbn [opt_set]. split; [tauto|]. intros [(s & [] & _)|[]]. }
  destruct Eg as [(subs & p & Q1 & Q2 & Q3 & Q4)].
  destruct (if g_state g =? 0 then Some (g_buf g) else flush g) as [b2|] eqn:Ef; [|discriminate].
  assert (D : exists subs', b2 = hdr ++ enc_subs subs' /\ Forall sub_ok subs' /\ (forall x, inr x (rc_serials rc) <-> subs_set subs' x)).
  { destruct p as [s|].
    - pose proof (pending_state _ _ Q3) as Nz. destruct (g_state g =? 0) eqn:E0; [lia|]. destruct (flush_some g s b2 Q3 Ef) as [F1 F2]. exists (subs ++ [s]).
      split; [rewrite F2, Q1, enc_subs_snoc; now rewrite app_assoc|]. split; [apply Forall_app; split; [exact Q2|constructor; [exact F1|constructor]]|].
      intros x. rewrite subs_set_snoc. specialize (Q4 x). cbn [opt_set] in Q4. tauto.
    - cbn [pending] in Q3. rewrite Q3 in Ef. injection Ef as <-. exists subs. split; [exact Q1|]. split; [exact Q2|]. intros x. specialize (Q4 x). cbn [opt_set] in Q4. tauto. }
  destruct D as (subs' & -> & D2 & D3). apply put_section_some in H as (Sm & b & Eb & -> & Le). assert (b = hdr ++ enc_subs subs') as -> by congruence.
  exists subs'. cbv zeta. split; [|split; [exact Lc|split; [exact D2|split; [exact D3|split; [exact Sm|exact Le]]]]].
  unfold hdr. rewrite <- !app_assoc. unfold ids_part. destruct (rc_ids rc); reflexivity.
Qed.
