(** Proofs about the base64 routines. *)
From Coq Require Import String.
From Verif Require Import Base SshbufModel AuthOptModel Base64Model Base64Spec AuthOptProof KrlProof5.

Lemma forall_below : forall (P : Z -> bool) n, forallb P (map Z.of_nat (seq 0 n)) = true ->
  forall b, 0 <= b < Z.of_nat n -> P b = true.
Proof.
  intros P n H b Hb. rewrite forallb_forall in H. apply H. apply in_map_iff. exists (Z.to_nat b).
  split; [lia|]. apply in_seq. lia.
Qed.

(** ** Bits of bytes *)
Lemma value2 : forall a b c d e f, value [a; b; c; d; e; f] = 16 * value [a; b] + value [c; d; e; f].
Proof. intros [] [] [] [] [] []; reflexivity. Qed.
Lemma value4 : forall a b c d e f, value [a; b; c; d; e; f] = 4 * value [a; b; c; d] + value [e; f].
Proof. intros [] [] [] [] [] []; reflexivity. Qed.
Lemma hi6 : forall b, 0 <= b < 256 -> value [Z.testbit b 7; Z.testbit b 6; Z.testbit b 5; Z.testbit b 4; Z.testbit b 3; Z.testbit b 2] = b / 4.
Proof. intros b Hb. apply Z.eqb_eq. revert b Hb. apply (forall_below (fun b => value [Z.testbit b 7; Z.testbit b 6; Z.testbit b 5; Z.testbit b 4; Z.testbit b 3; Z.testbit b 2] =? b / 4) 256). vm_compute. reflexivity. Qed.
Lemma lo2 : forall b, 0 <= b < 256 -> value [Z.testbit b 1; Z.testbit b 0] = b mod 4.
Proof. intros b Hb. apply Z.eqb_eq. revert b Hb. apply (forall_below (fun b => value [Z.testbit b 1; Z.testbit b 0] =? b mod 4) 256). vm_compute. reflexivity. Qed.
Lemma hi4 : forall b, 0 <= b < 256 -> value [Z.testbit b 7; Z.testbit b 6; Z.testbit b 5; Z.testbit b 4] = b / 16.
Proof. intros b Hb. apply Z.eqb_eq. revert b Hb. apply (forall_below (fun b => value [Z.testbit b 7; Z.testbit b 6; Z.testbit b 5; Z.testbit b 4] =? b / 16) 256). vm_compute. reflexivity. Qed.
Lemma lo4 : forall b, 0 <= b < 256 -> value [Z.testbit b 3; Z.testbit b 2; Z.testbit b 1; Z.testbit b 0] = b mod 16.
Proof. intros b Hb. apply Z.eqb_eq. revert b Hb. apply (forall_below (fun b => value [Z.testbit b 3; Z.testbit b 2; Z.testbit b 1; Z.testbit b 0] =? b mod 16) 256). vm_compute. reflexivity. Qed.
Lemma hi2 : forall b, 0 <= b < 256 -> value [Z.testbit b 7; Z.testbit b 6] = b / 64.
Proof. intros b Hb. apply Z.eqb_eq. revert b Hb. apply (forall_below (fun b => value [Z.testbit b 7; Z.testbit b 6] =? b / 64) 256). vm_compute. reflexivity. Qed.
Lemma lo6 : forall b, 0 <= b < 256 -> value [Z.testbit b 5; Z.testbit b 4; Z.testbit b 3; Z.testbit b 2; Z.testbit b 1; Z.testbit b 0] = b mod 64.
Proof. intros b Hb. apply Z.eqb_eq. revert b Hb. apply (forall_below (fun b => value [Z.testbit b 5; Z.testbit b 4; Z.testbit b 3; Z.testbit b 2; Z.testbit b 1; Z.testbit b 0] =? b mod 64) 256). vm_compute. reflexivity. Qed.

Lemma pads3 : forall n, 0 <= n -> pads (n + 3) = pads n.
Proof. intros n H. unfold pads. replace ((n + 3) mod 3) with (n mod 3) by lia. reflexivity. Qed.

Lemma base64_3 : forall a b c r, is_byte a -> is_byte b -> is_byte c ->
  base64 (a :: b :: c :: r) =
  letter (a / 4) :: letter (a mod 4 * 16 + b / 16) :: letter (b mod 16 * 4 + c / 64) :: letter (c mod 64) :: base64 r.
Proof.
  intros a b c r Ha Hb Hc. unfold is_byte in *. unfold base64. rewrite !zlen_cons.
  replace (zlen r + 1 + 1 + 1) with (zlen r + 3) by lia. rewrite pads3 by apply zlen_nonneg.
  cbn [flat_map bits app]. cbn [sextets map app Z.of_nat Pos.of_succ_nat Pos.succ].
  rewrite hi6, lo6 by assumption. rewrite value2, lo2, hi4 by assumption. rewrite value4, lo4, hi2 by assumption.
  rewrite ?(Z.mul_comm 16), ?(Z.mul_comm 4). reflexivity.
Qed.
Lemma base64_2 : forall a b, is_byte a -> is_byte b ->
  base64 [a; b] = [letter (a / 4); letter (a mod 4 * 16 + b / 16); letter (b mod 16 * 4); 61].
Proof.
  intros a b Ha Hb. unfold is_byte in *. unfold base64. change (pads (zlen [a; b])) with [61].
  cbn [flat_map bits app]. cbn [sextets map app firstn repeat Z.of_nat Pos.of_succ_nat Pos.succ].
  rewrite hi6 by assumption. rewrite value2, lo2, hi4 by assumption. rewrite value4, lo4 by assumption.
  change (value [false; false]) with 0. rewrite ?(Z.mul_comm 16), ?(Z.mul_comm 4), ?Z.add_0_r. reflexivity.
Qed.
Lemma base64_1 : forall a, is_byte a ->
  base64 [a] = [letter (a / 4); letter (a mod 4 * 16); 61; 61].
Proof.
  intros a Ha. unfold is_byte in *. unfold base64. change (pads (zlen [a])) with [61; 61].
  cbn [flat_map bits app]. cbn [sextets map app firstn repeat Z.of_nat Pos.of_succ_nat Pos.succ].
  rewrite hi6 by assumption. rewrite value2, lo2 by assumption.
  change (value [false; false; false; false]) with 0. rewrite ?(Z.mul_comm 16), ?(Z.mul_comm 4), ?Z.add_0_r. reflexivity.
Qed.

(** Induction over byte strings three at a time. *)
Lemma ind3 : forall (P : list Z -> Prop), P [] ->
  (forall a, is_byte a -> P [a]) -> (forall a b, is_byte a -> is_byte b -> P [a; b]) ->
  (forall a b c r, is_byte a -> is_byte b -> is_byte c -> is_bytes r -> P r -> P (a :: b :: c :: r)) ->
  forall d, is_bytes d -> P d.
Proof.
  intros P H0 H1 H2 H3 d Hd. remember (length d) as n eqn:E. revert d Hd E.
  induction n as [n IH] using (well_founded_induction Wf_nat.lt_wf). intros d Hd E.
  destruct d as [|a [|b [|c r]]].
  - exact H0.
  - inversion Hd; subst. auto.
  - inversion Hd as [|? ? Ha Hd1]; subst. inversion Hd1; subst. auto.
  - inversion Hd as [|? ? Ha Hd1]; subst. inversion Hd1 as [|? ? Hb Hd2]; subst. inversion Hd2; subst.
    apply H3; auto. eapply IH; [|assumption|reflexivity]. cbn [length]. lia.
Qed.

(** ** Letters *)
Lemma letters_ok : forall v, 0 <= v < 64 ->
  ((match b64_pos (letter v) with Some w => w =? v | None => false end)
    && negb (isspace (letter v)) && negb (letter v =? 61) && negb (white (letter v)) && (0 <? letter v) && (letter v <? 128)) = true.
Proof. apply (forall_below _ 64). vm_compute. reflexivity. Qed.
Lemma letter_pos : forall v, 0 <= v < 64 -> b64_pos (letter v) = Some v.
Proof. intros v H. pose proof (letters_ok v H) as L. destruct (b64_pos (letter v)) as [w|]; [|discriminate L]. f_equal. lia. Qed.
Lemma letter_space : forall v, 0 <= v < 64 -> isspace (letter v) = false.
Proof. intros v H. pose proof (letters_ok v H) as L. destruct (isspace (letter v)); [|reflexivity]. rewrite andb_false_r in L. discriminate. Qed.
Lemma letter_pad : forall v, 0 <= v < 64 -> (letter v =? 61) = false.
Proof. intros v H. pose proof (letters_ok v H) as L. lia. Qed.
Lemma letter_white : forall v, 0 <= v < 64 -> white (letter v) = false.
Proof. intros v H. pose proof (letters_ok v H) as L. destruct (white (letter v)); [|reflexivity]. rewrite !andb_false_r in L. discriminate. Qed.
Lemma letter_inj : forall v w, 0 <= v < 64 -> 0 <= w < 64 -> letter v = letter w -> v = w.
Proof. intros v w Hv Hw E. pose proof (letter_pos v Hv) as A. rewrite E, letter_pos in A by assumption. congruence. Qed.
Lemma b64_char_letter : forall v, b64_char v = letter v.
Proof. reflexivity. Qed.

Lemma index_of_spec : forall c l i v, index_of c l i = Some v -> i <= v < i + zlen l /\ nth (Z.to_nat (v - i)) l 0 = c.
Proof.
  intros c l. induction l as [|x l IH]; intros i v H; cbn [index_of] in H; [discriminate|]. rewrite zlen_cons.
  destruct (x =? c) eqn:E.
  - injection H as <-. pose proof (zlen_nonneg _ l). replace (i - i) with 0 by lia. cbn. split; lia.
  - apply IH in H. destruct H as [H1 H2]. split; [lia|]. replace (Z.to_nat (v - i)) with (S (Z.to_nat (v - (i + 1)))) by lia. exact H2.
Qed.
Lemma pos_letter : forall c v, b64_pos c = Some v -> 0 <= v < 64 /\ c = letter v.
Proof.
  intros c v H. apply index_of_spec in H. change (zlen Base64) with 64 in H. destruct H as [H1 H2].
  split; [lia|]. rewrite <- H2. unfold letter. repeat f_equal. lia.
Qed.

Lemma white_space : forall c, white c = isspace c.
Proof. intros c. unfold white, isspace. cbn [existsb]. lia. Qed.

(** ** Encoding *)
Lemma shr2 : forall a, Z.shiftr a 2 = a / 4.
Proof. intros. rewrite Z.shiftr_div_pow2 by lia. reflexivity. Qed.
Lemma shr4 : forall a, Z.shiftr a 4 = a / 16.
Proof. intros. rewrite Z.shiftr_div_pow2 by lia. reflexivity. Qed.
Lemma shr6 : forall a, Z.shiftr a 6 = a / 64.
Proof. intros. rewrite Z.shiftr_div_pow2 by lia. reflexivity. Qed.
Lemma and3 : forall a, Z.land a 3 = a mod 4.
Proof. intros. change 3 with (Z.ones 2). rewrite Z.land_ones by lia. reflexivity. Qed.
Lemma and15 : forall a, Z.land a 15 = a mod 16.
Proof. intros. change 15 with (Z.ones 4). rewrite Z.land_ones by lia. reflexivity. Qed.
Lemma and63 : forall a, Z.land a 63 = a mod 64.
Proof. intros. change 63 with (Z.ones 6). rewrite Z.land_ones by lia. reflexivity. Qed.
Lemma shl2 : forall a, Z.shiftl a 2 = a * 4.
Proof. intros. rewrite Z.shiftl_mul_pow2 by lia. reflexivity. Qed.
Lemma shl4 : forall a, Z.shiftl a 4 = a * 16.
Proof. intros. rewrite Z.shiftl_mul_pow2 by lia. reflexivity. Qed.
Lemma shl6 : forall a, Z.shiftl a 6 = a * 64.
Proof. intros. rewrite Z.shiftl_mul_pow2 by lia. reflexivity. Qed.
Ltac arith64 := rewrite ?shr2, ?shr4, ?shr6, ?and3, ?and15, ?and63, ?shl2, ?shl4, ?shl6.

Lemma emit4 : forall n o a b c d, zlen o + 4 <= n ->
  emit n d (emit n c (emit n b (emit n a (Some o)))) = Some (o ++ [a; b; c; d]).
Proof.
  intros n o a b c d H. cbn [emit]. replace (zlen o <? n) with true by lia. cbn [emit].
  rewrite zlen_app. change (zlen [a]) with 1. replace (zlen o + 1 <? n) with true by lia. cbn [emit].
  rewrite !zlen_app. change (zlen [a]) with 1. change (zlen [b]) with 1. replace (zlen o + 1 + 1 <? n) with true by lia. cbn [emit].
  rewrite !zlen_app. change (zlen [a]) with 1. change (zlen [b]) with 1. change (zlen [c]) with 1. replace (zlen o + 1 + 1 + 1 <? n) with true by lia.
  f_equal. rewrite <- !app_assoc. reflexivity.
Qed.
Lemma zlen4 : forall (a b c d : Z) r, zlen (a :: b :: c :: d :: r) = zlen r + 4.
Proof. intros. rewrite !zlen_cons. lia. Qed.

Lemma ntop_go : forall d, is_bytes d -> forall n out,
  b64_ntop_go d n out = if n <=? zlen out + zlen (base64 d) then NErr else NOk (out ++ base64 d).
Proof.
  intros d Hd. pattern d. revert d Hd. apply ind3.
  - intros n out. cbn [b64_ntop_go]. change (base64 []) with (@nil Z). rewrite zlen_nil, app_nil_r, Z.add_0_r. reflexivity.
  - intros a Ha n out. rewrite base64_1 by assumption. cbn [b64_ntop_go]. rewrite zlen4, zlen_nil.
    destruct (n <? zlen out + 4) eqn:E1; [replace (n <=? zlen out + (0 + 4)) with true by lia; reflexivity|].
    rewrite emit4 by lia. rewrite zlen_app, zlen4, zlen_nil. destruct (n <=? zlen out + (0 + 4)); [reflexivity|].
    unfold is_byte in Ha. unfold b64_char. fold (letter (Z.shiftr a 2)). arith64. repeat f_equal. unfold u8, U8. change (letter ((a mod 4 * 16 + 0 / 16) mod 256) = letter (a mod 4 * 16)). f_equal. lia.
  - intros a b Ha Hb n out. rewrite base64_2 by assumption. cbn [b64_ntop_go]. rewrite zlen4, zlen_nil.
    destruct (n <? zlen out + 4) eqn:E1; [replace (n <=? zlen out + (0 + 4)) with true by lia; reflexivity|].
    rewrite emit4 by lia. rewrite zlen_app, zlen4, zlen_nil. destruct (n <=? zlen out + (0 + 4)); [reflexivity|].
    unfold is_byte in Ha, Hb. rewrite !b64_char_letter. arith64. unfold u8, U8.
    replace ((a mod 4 * 16 + b / 16) mod 256) with (a mod 4 * 16 + b / 16) by lia.
    replace ((b mod 16 * 4 + 0 / 64) mod 256) with (b mod 16 * 4) by lia. reflexivity.
  - intros a b c r Ha Hb Hc Hr IH n out. rewrite base64_3 by assumption. cbn [b64_ntop_go]. rewrite zlen4.
    pose proof (zlen_nonneg _ (base64 r)).
    destruct (n <? zlen out + 4) eqn:E1; [replace (n <=? zlen out + (zlen (base64 r) + 4)) with true by lia; reflexivity|].
    rewrite emit4 by lia. rewrite IH. rewrite zlen_app, zlen4, zlen_nil, <- app_assoc. cbn [app].
    replace (zlen out + (0 + 4) + zlen (base64 r)) with (zlen out + (zlen (base64 r) + 4)) by lia.
    destruct (n <=? zlen out + (zlen (base64 r) + 4)); [reflexivity|].
    unfold is_byte in *. rewrite !b64_char_letter. arith64. unfold u8, U8.
    replace ((a mod 4 * 16 + b / 16) mod 256) with (a mod 4 * 16 + b / 16) by lia.
    replace ((b mod 16 * 4 + c / 64) mod 256) with (b mod 16 * 4 + c / 64) by lia. reflexivity.
Qed.
Lemma ntop_spec : forall d n, is_bytes d ->
  b64_ntop d n = if zlen (base64 d) <? n then NOk (base64 d) else NErr.
Proof.
  intros d n H. unfold b64_ntop. rewrite ntop_go by assumption. rewrite zlen_nil. cbn [app].
  destruct (n <=? 0 + zlen (base64 d)) eqn:A; destruct (zlen (base64 d) <? n) eqn:B; try reflexivity; lia.
Qed.

Lemma zlen_base64 : forall d, is_bytes d -> zlen (base64 d) = (zlen d + 2) / 3 * 4.
Proof.
  intros d Hd. pattern d. revert d Hd. apply ind3.
  - reflexivity.
  - intros a Ha. rewrite base64_1 by assumption. reflexivity.
  - intros a b Ha Hb. rewrite base64_2 by assumption. reflexivity.
  - intros a b c r Ha Hb Hc Hr IH. rewrite base64_3 by assumption. rewrite zlen4, IH, !zlen_cons. lia.
Qed.

(** ** Decoding: white space is skipped everywhere *)
Lemma squeeze_cons : forall c r, squeeze (c :: r) = if isspace c then squeeze r else c :: squeeze r.
Proof. intros. unfold squeeze. cbn [filter]. rewrite white_space. destruct (isspace c); reflexivity. Qed.
Lemma trail_squeeze : forall s ti t, b64_trail s ti t = b64_trail (squeeze s) ti t.
Proof.
  induction s as [|c s IH]; intros ti t; [reflexivity|]. rewrite squeeze_cons. cbn [b64_trail].
  destruct (isspace c) eqn:E; [apply IH|]. cbn [b64_trail]. rewrite E. reflexivity.
Qed.
Lemma pad2_squeeze : forall s ti t, b64_pad2 s ti t = b64_pad2 (squeeze s) ti t.
Proof.
  induction s as [|c s IH]; intros ti t; [reflexivity|]. rewrite squeeze_cons. cbn [b64_pad2].
  destruct (isspace c) eqn:E; [apply IH|]. cbn [b64_pad2]. rewrite E. destruct (c =? Pad64); [apply trail_squeeze|reflexivity].
Qed.
Lemma pton_squeeze : forall s st ti t, b64_pton_go s st ti t = b64_pton_go (squeeze s) st ti t.
Proof.
  induction s as [|c s IH]; intros st ti t; [reflexivity|]. rewrite squeeze_cons. cbn [b64_pton_go].
  destruct (isspace c) eqn:E; [apply IH|]. cbn [b64_pton_go]. rewrite E.
  destruct (c =? Pad64). { unfold b64_pad. rewrite pad2_squeeze, trail_squeeze. reflexivity. }
  destruct (b64_pos c) as [v|]; [|reflexivity].
  repeat match goal with
  | |- (if ?x then _ else _) = (if ?x then _ else _) => destruct x
  | |- match ?x with Some _ => _ | None => _ end = match ?x with Some _ => _ | None => _ end => destruct x
  end; try reflexivity; apply IH.
Qed.
Lemma squeeze_nows : forall s, Forall (fun c => isspace c = false) (squeeze s).
Proof.
  induction s as [|c s IH]; [constructor|]. rewrite squeeze_cons. destruct (isspace c) eqn:E; [assumption|]. constructor; assumption.
Qed.

(** ** Stores *)
Lemma tput_at : forall a o r v i, i = zlen a -> tput (a ++ o :: r) i v = Some (a ++ v :: r).
Proof.
  intros a o r v i ->. unfold tput. rewrite zlen_app, zlen_cons. pose proof (zlen_nonneg _ a). pose proof (zlen_nonneg _ r).
  replace ((0 <=? zlen a) && (zlen a <? zlen a + (zlen r + 1))) with true by lia.
  rewrite ztake_app_exact by reflexivity. f_equal. f_equal. f_equal.
  replace (a ++ o :: r) with ((a ++ [o]) ++ r) by (rewrite <- app_assoc; reflexivity). apply zdrop_app_exact. rewrite zlen_app. reflexivity.
Qed.
Lemma tget_at : forall a o r i, i = zlen a -> tget (a ++ o :: r) i = Some o.
Proof.
  intros a o r i ->. unfold tget. rewrite zlen_app, zlen_cons. pose proof (zlen_nonneg _ a). pose proof (zlen_nonneg _ r).
  replace ((0 <=? zlen a) && (zlen a <? zlen a + (zlen r + 1))) with true by lia. f_equal.
  unfold zlen. rewrite Nat2Z.id. rewrite app_nth2 by lia. rewrite Nat.sub_diag. reflexivity.
Qed.

Lemma lor4 : forall a b, 0 <= a < 64 -> 0 <= b < 4 -> Z.lor (a * 4) b = a * 4 + b.
Proof.
  intros a b Ha Hb. apply Z.eqb_eq. revert b Hb. apply (forall_below (fun b => Z.lor (a * 4) b =? a * 4 + b) 4).
  revert a Ha. apply (forall_below (fun a => forallb (fun b => Z.lor (a * 4) b =? a * 4 + b) (map Z.of_nat (seq 0 4))) 64). vm_compute. reflexivity.
Qed.
Lemma lor16 : forall a b, 0 <= a < 16 -> 0 <= b < 16 -> Z.lor (a * 16) b = a * 16 + b.
Proof.
  intros a b Ha Hb. apply Z.eqb_eq. revert b Hb. apply (forall_below (fun b => Z.lor (a * 16) b =? a * 16 + b) 16).
  revert a Ha. apply (forall_below (fun a => forallb (fun b => Z.lor (a * 16) b =? a * 16 + b) (map Z.of_nat (seq 0 16))) 16). vm_compute. reflexivity.
Qed.
Lemma lor64 : forall a b, 0 <= a < 4 -> 0 <= b < 64 -> Z.lor (a * 64) b = a * 64 + b.
Proof.
  intros a b Ha Hb. apply Z.eqb_eq. revert b Hb. apply (forall_below (fun b => Z.lor (a * 64) b =? a * 64 + b) 64).
  revert a Ha. apply (forall_below (fun a => forallb (fun b => Z.lor (a * 64) b =? a * 64 + b) (map Z.of_nat (seq 0 64))) 4). vm_compute. reflexivity.
Qed.

(** One step per state on a letter. *)
Lemma step0 : forall v r a rest, 0 <= v < 64 ->
  b64_pton_go (letter v :: r) 0 (zlen a) (a ++ rest) =
  match rest with [] => PErr | _ :: rest' => b64_pton_go r 1 (zlen a) (a ++ v * 4 :: rest') end.
Proof.
  intros v r a rest Hv. cbn [b64_pton_go]. rewrite letter_space, letter_pos by assumption. unfold Pad64. rewrite letter_pad by assumption.
  change (0 =? 0) with true. cbv iota. rewrite zlen_app. destruct rest as [|x rest'].
  - rewrite zlen_nil. replace (zlen a + 0 <=? zlen a) with true by lia. reflexivity.
  - rewrite zlen_cons. pose proof (zlen_nonneg _ rest'). replace (zlen a + (zlen rest' + 1) <=? zlen a) with false by lia.
    rewrite tput_at by reflexivity. arith64. unfold u8, U8. rewrite Z.mod_small by lia. reflexivity.
Qed.
Lemma step1 : forall v r a o rest, 0 <= v < 64 -> 0 <= o < 64 -> zlen a < 4294967295 ->
  b64_pton_go (letter v :: r) 1 (zlen a) (a ++ o * 4 :: rest) =
  match rest with [] => PErr | _ :: rest' => b64_pton_go r 2 (zlen (a ++ [o * 4 + v / 16])) ((a ++ [o * 4 + v / 16]) ++ v mod 16 * 16 :: rest') end.
Proof.
  intros v r a o rest Hv Ho Hl. cbn [b64_pton_go]. rewrite letter_space, letter_pos by assumption. unfold Pad64. rewrite letter_pad by assumption.
  change (1 =? 0) with false. change (1 =? 1) with true. cbv iota. pose proof (zlen_nonneg _ a).
  assert (E : u32 (zlen a + 1) = zlen a + 1) by (unfold u32, U32; apply Z.mod_small; lia). rewrite E.
  rewrite zlen_app, zlen_cons. destruct rest as [|x rest'].
  - rewrite zlen_nil. replace (zlen a + (0 + 1) <=? zlen a + 1) with true by lia. reflexivity.
  - rewrite zlen_cons. pose proof (zlen_nonneg _ rest'). replace (zlen a + (zlen rest' + 1 + 1) <=? zlen a + 1) with false by lia.
    rewrite tget_at, tput_at by reflexivity. arith64. rewrite lor4 by lia.
    unfold u8, U8. rewrite (Z.mod_small (o * 4 + v / 16)) by lia. rewrite (Z.mod_small (v mod 16 * 16)) by lia.
    replace (a ++ o * 4 + v / 16 :: x :: rest') with ((a ++ [o * 4 + v / 16]) ++ x :: rest') by (rewrite <- app_assoc; reflexivity).
    rewrite tput_at by (rewrite zlen_app; reflexivity). rewrite !zlen_app. reflexivity.
Qed.
Lemma step2 : forall v r a o rest, 0 <= v < 64 -> 0 <= o < 16 -> zlen a < 4294967295 ->
  b64_pton_go (letter v :: r) 2 (zlen a) (a ++ o * 16 :: rest) =
  match rest with [] => PErr | _ :: rest' => b64_pton_go r 3 (zlen (a ++ [o * 16 + v / 4])) ((a ++ [o * 16 + v / 4]) ++ v mod 4 * 64 :: rest') end.
Proof.
  intros v r a o rest Hv Ho Hl. cbn [b64_pton_go]. rewrite letter_space, letter_pos by assumption. unfold Pad64. rewrite letter_pad by assumption.
  change (2 =? 0) with false. change (2 =? 1) with false. change (2 =? 2) with true. cbv iota. pose proof (zlen_nonneg _ a).
  assert (E : u32 (zlen a + 1) = zlen a + 1) by (unfold u32, U32; apply Z.mod_small; lia). rewrite E.
  rewrite zlen_app, zlen_cons. destruct rest as [|x rest'].
  - rewrite zlen_nil. replace (zlen a + (0 + 1) <=? zlen a + 1) with true by lia. reflexivity.
  - rewrite zlen_cons. pose proof (zlen_nonneg _ rest'). replace (zlen a + (zlen rest' + 1 + 1) <=? zlen a + 1) with false by lia.
    rewrite tget_at, tput_at by reflexivity. arith64. rewrite lor16 by lia.
    unfold u8, U8. rewrite (Z.mod_small (o * 16 + v / 4)) by lia. rewrite (Z.mod_small (v mod 4 * 64)) by lia.
    replace (a ++ o * 16 + v / 4 :: x :: rest') with ((a ++ [o * 16 + v / 4]) ++ x :: rest') by (rewrite <- app_assoc; reflexivity).
    rewrite tput_at by (rewrite zlen_app; reflexivity). rewrite !zlen_app. reflexivity.
Qed.
Lemma step3 : forall v r a o rest, 0 <= v < 64 -> 0 <= o < 4 -> zlen a < 4294967295 ->
  b64_pton_go (letter v :: r) 3 (zlen a) (a ++ o * 64 :: rest) = b64_pton_go r 0 (zlen (a ++ [o * 64 + v])) ((a ++ [o * 64 + v]) ++ rest).
Proof.
  intros v r a o rest Hv Ho Hl. cbn [b64_pton_go]. rewrite letter_space, letter_pos by assumption. unfold Pad64. rewrite letter_pad by assumption.
  change (3 =? 0) with false. change (3 =? 1) with false. change (3 =? 2) with false. cbv iota. pose proof (zlen_nonneg _ a).
  assert (E : u32 (zlen a + 1) = zlen a + 1) by (unfold u32, U32; apply Z.mod_small; lia). rewrite E.
  rewrite zlen_app, zlen_cons. pose proof (zlen_nonneg _ rest). replace (zlen a + (zlen rest + 1) <=? zlen a) with false by lia.
  rewrite tget_at, tput_at by reflexivity. rewrite lor64 by lia. unfold u8, U8. rewrite Z.mod_small by lia.
  rewrite zlen_app, <- app_assoc. reflexivity.
Qed.

(** How much room the decoder wants for [n] bytes *)
Definition need (n : Z) : Z := if n mod 3 =? 0 then n else n + 1.

(** Completeness: the canonical text is decoded if there is room. *)
Lemma pton_complete : forall d, is_bytes d -> forall a rest, zlen a + zlen d < 4294967295 ->
  exists rest', b64_pton_go (base64 d) 0 (zlen a) (a ++ rest) =
    if need (zlen d) <=? zlen rest then POk (zlen (a ++ d)) ((a ++ d) ++ rest') else PErr.
Proof.
  intros d Hd. pattern d. revert d Hd. apply ind3.
  - intros a rest Hl. exists rest. change (base64 []) with (@nil Z). cbn [b64_pton_go]. change (need (zlen (@nil Z))) with 0.
    pose proof (zlen_nonneg _ rest). replace (0 <=? zlen rest) with true by lia. rewrite app_nil_r. reflexivity.
  - intros x Hx a rest Hl. change (zlen [x]) with 1 in Hl. change (need (zlen [x])) with 2. unfold is_byte in Hx.
    rewrite base64_1 by assumption. rewrite step0 by lia. destruct rest as [|y rest]. { exists []. reflexivity. }
    rewrite step1 by lia. destruct rest as [|y' rest]. { exists []. reflexivity. }
    exists (0 :: rest). rewrite !zlen_cons. pose proof (zlen_nonneg _ rest). replace (2 <=? zlen rest + 1 + 1) with true by lia.
    replace (x / 4 * 4 + x mod 4 * 16 / 16) with x by lia. replace ((x mod 4 * 16) mod 16 * 16) with 0 by lia.
    cbn [b64_pton_go]. change (isspace 61) with false. change (61 =? Pad64) with true. unfold b64_pad. change (2 =? 2) with true. cbv iota.
    cbn [b64_pad2]. change (isspace 61) with false. change (61 =? Pad64) with true. cbv iota. cbn [b64_trail].
    rewrite tget_at by reflexivity. reflexivity.
  - intros x y Hx Hy a rest Hl. change (zlen [x; y]) with 2 in Hl. change (need (zlen [x; y])) with 3. unfold is_byte in Hx, Hy.
    rewrite base64_2 by assumption. rewrite step0 by lia. destruct rest as [|z rest]. { exists []. reflexivity. }
    rewrite step1 by lia. destruct rest as [|z' rest]. { exists []. reflexivity. }
    rewrite step2; [|lia|lia|rewrite zlen_app; change (zlen [_]) with 1; lia]. destruct rest as [|z'' rest]. { exists []. reflexivity. }
    exists (0 :: rest). rewrite !zlen_cons. pose proof (zlen_nonneg _ rest). replace (3 <=? zlen rest + 1 + 1 + 1) with true by lia.
    replace (x / 4 * 4 + (x mod 4 * 16 + y / 16) / 16) with x by lia.
    replace ((x mod 4 * 16 + y / 16) mod 16 * 16 + y mod 16 * 4 / 4) with y by lia.
    replace ((y mod 16 * 4) mod 4 * 64) with 0 by lia.
    cbn [b64_pton_go]. change (isspace 61) with false. change (61 =? Pad64) with true. unfold b64_pad. change (3 =? 2) with false. change (3 =? 3) with true. cbv iota. cbn [b64_trail].
    rewrite tget_at by reflexivity. rewrite <- (app_assoc a). reflexivity.
  - intros x y z r Hx Hy Hz Hr IH a rest Hl. unfold is_byte in Hx, Hy, Hz. rewrite !zlen_cons in Hl. pose proof (zlen_nonneg _ r).
    rewrite base64_3 by assumption. rewrite !zlen_cons.
    assert (N : need (zlen r + 1 + 1 + 1) = need (zlen r) + 3). { unfold need. replace ((zlen r + 1 + 1 + 1) mod 3) with (zlen r mod 3) by lia. destruct (zlen r mod 3 =? 0); lia. }
    assert (N0 : 0 <= need (zlen r)) by (unfold need; destruct (zlen r mod 3 =? 0); lia).
    rewrite N. rewrite step0 by lia. destruct rest as [|w rest]. { exists []. rewrite zlen_nil. replace (need (zlen r) + 3 <=? 0) with false by lia. reflexivity. }
    rewrite step1 by lia. destruct rest as [|w' rest]. { exists []. rewrite zlen_cons, zlen_nil. replace (need (zlen r) + 3 <=? 0 + 1) with false by lia. reflexivity. }
    rewrite step2; [|lia|lia|rewrite zlen_app; change (zlen [_]) with 1; lia].
    destruct rest as [|w'' rest]. { exists []. rewrite !zlen_cons, zlen_nil. replace (need (zlen r) + 3 <=? 0 + 1 + 1) with false by lia. reflexivity. }
    rewrite step3; [|lia|lia|rewrite !zlen_app; change (zlen [_]) with 1; lia].
    replace (x / 4 * 4 + (x mod 4 * 16 + y / 16) / 16) with x by lia.
    replace ((x mod 4 * 16 + y / 16) mod 16 * 16 + (y mod 16 * 4 + z / 64) / 4) with y by lia.
    replace ((y mod 16 * 4 + z / 64) mod 4 * 64 + z mod 64) with z by lia.
    destruct (IH (((a ++ [x]) ++ [y]) ++ [z]) rest) as [rest' E].
    { rewrite !zlen_app. change (zlen [x]) with 1. change (zlen [y]) with 1. change (zlen [z]) with 1. lia. }
    exists rest'. rewrite E. rewrite !zlen_cons. replace (need (zlen r) + 3 <=? zlen rest + 1 + 1 + 1) with (need (zlen r) <=? zlen rest) by lia.
    rewrite <- !app_assoc. reflexivity.
Qed.

(** Soundness: only the canonical text of some bytes is decoded, to those bytes;
    and there is no access out of bounds. *)
Lemma trail_nil : forall cs a o rest, Forall (fun c => isspace c = false) cs ->
  b64_trail cs (zlen a) (a ++ o :: rest) = match cs with [] => if o =? 0 then POk (zlen a) (a ++ o :: rest) else PErr | _ => PErr end.
Proof.
  intros [|c cs] a o rest H; cbn [b64_trail].
  - rewrite tget_at by reflexivity. reflexivity.
  - inversion H as [|? ? A B]. rewrite A. reflexivity.
Qed.

Lemma pton_sound : forall n cs, (length cs <= n)%nat -> Forall (fun c => isspace c = false) cs ->
  forall a rest, zlen a + zlen cs < 4294967295 ->
  b64_pton_go cs 0 (zlen a) (a ++ rest) = PErr \/
  exists d rest', is_bytes d /\ cs = base64 d /\ b64_pton_go cs 0 (zlen a) (a ++ rest) = POk (zlen (a ++ d)) ((a ++ d) ++ rest').
Proof.
  induction n as [|n IH]; intros cs Hn Hws a rest Hl.
  { destruct cs; cbn [length] in Hn; [|lia]. right. exists [], rest. splits; [constructor|reflexivity|]. cbn [b64_pton_go]. rewrite app_nil_r. reflexivity. }
  destruct cs as [|c0 cs]. { right. exists [], rest. splits; [constructor|reflexivity|]. cbn [b64_pton_go]. rewrite app_nil_r. reflexivity. }
  rewrite zlen_cons in Hl. pose proof (zlen_nonneg _ cs) as L0. inversion Hws as [|? ? S0 W0]; subst.
  assert (PERR : forall c r st ti t, isspace c = false -> (c =? 61) = false -> b64_pos c = None -> b64_pton_go (c :: r) st ti t = PErr).
  { intros. cbn [b64_pton_go]. rewrite H, H1. unfold Pad64. rewrite H0. reflexivity. }
  assert (PAD : forall c r st ti t, isspace c = false -> (c =? 61) = true -> b64_pton_go (c :: r) st ti t = b64_pad r st ti t).
  { intros. cbn [b64_pton_go]. rewrite H. unfold Pad64. rewrite H0. reflexivity. }
  destruct (c0 =? 61) eqn:P0. { left. rewrite PAD by assumption. reflexivity. }
  destruct (b64_pos c0) as [v0|] eqn:B0; [|left; apply PERR; assumption].
  apply pos_letter in B0. destruct B0 as [V0 ->]. rewrite step0 by assumption.
  destruct rest as [|x0 rest]; [left; reflexivity|].
  destruct cs as [|c1 cs]. { left. reflexivity. } inversion W0 as [|? ? S1 W1]; subst.
  destruct (c1 =? 61) eqn:P1. { left. rewrite PAD by assumption. reflexivity. }
  destruct (b64_pos c1) as [v1|] eqn:B1; [|left; apply PERR; assumption].
  apply pos_letter in B1. destruct B1 as [V1 ->]. rewrite zlen_cons in Hl, L0.
  pose proof (zlen_nonneg _ cs) as L1. rewrite step1 by lia.
  destruct rest as [|x1 rest]; [left; reflexivity|].
  destruct cs as [|c2 cs]. { left. reflexivity. } inversion W1 as [|? ? S2 W2]; subst.
  set (b0 := v0 * 4 + v1 / 16). assert (Hb0 : 0 <= b0 < 256) by (unfold b0; lia).
  destruct (c2 =? 61) eqn:P2.
  { rewrite PAD by assumption. unfold b64_pad. change (2 =? 2) with true. cbv iota.
    destruct cs as [|c3 cs]; [left; reflexivity|]. inversion W2 as [|? ? S3 W3]; subst.
    cbn [b64_pad2]. rewrite S3. unfold Pad64. destruct (c3 =? 61) eqn:P3; [|left; reflexivity].
    rewrite trail_nil by assumption. destruct cs as [|c4 cs]; [|left; reflexivity].
    destruct (v1 mod 16 * 16 =? 0) eqn:E; [|left; reflexivity].
    right. exists [b0], (v1 mod 16 * 16 :: rest). splits.
    - repeat constructor; unfold is_byte; lia.
    - rewrite base64_1 by (unfold is_byte; lia). assert (c2 = 61) as -> by lia. assert (c3 = 61) as -> by lia.
      replace (b0 / 4) with v0 by (unfold b0; lia). replace (b0 mod 4 * 16) with v1 by (unfold b0; lia). reflexivity.
    - reflexivity. }
  destruct (b64_pos c2) as [v2|] eqn:B2; [|left; apply PERR; assumption].
  apply pos_letter in B2. destruct B2 as [V2 ->]. rewrite zlen_cons in Hl, L0, L1. pose proof (zlen_nonneg _ cs) as L2.
  rewrite step2; [|lia|lia|rewrite zlen_app; change (zlen [_]) with 1; lia].
  destruct rest as [|x2 rest]; [left; reflexivity|].
  destruct cs as [|c3 cs]. { left. reflexivity. } inversion W2 as [|? ? S3 W3]; subst.
  set (b1 := v1 mod 16 * 16 + v2 / 4). assert (Hb1 : 0 <= b1 < 256) by (unfold b1; lia).
  destruct (c3 =? 61) eqn:P3.
  { rewrite PAD by assumption. unfold b64_pad. change (3 =? 2) with false. change (3 =? 3) with true. cbv iota.
    rewrite trail_nil by assumption. destruct cs as [|c4 cs]; [|left; reflexivity].
    destruct (v2 mod 4 * 64 =? 0) eqn:E; [|left; reflexivity].
    right. exists [b0; b1], (v2 mod 4 * 64 :: rest). splits.
    - repeat constructor; unfold is_byte; lia.
    - rewrite base64_2 by (unfold is_byte; lia). assert (c3 = 61) as -> by lia.
      replace (b0 / 4) with v0 by (unfold b0; lia). replace (b0 mod 4 * 16 + b1 / 16) with v1 by (unfold b0, b1; lia).
      replace (b1 mod 16 * 4) with v2 by (unfold b1; lia). reflexivity.
    - rewrite <- (app_assoc a). reflexivity. }
  destruct (b64_pos c3) as [v3|] eqn:B3; [|left; apply PERR; assumption].
  apply pos_letter in B3. destruct B3 as [V3 ->]. rewrite zlen_cons in Hl, L0, L1, L2. pose proof (zlen_nonneg _ cs) as L3.
  rewrite step3; [|lia|lia|rewrite !zlen_app; change (zlen [_]) with 1; lia].
  set (b2 := v2 mod 4 * 64 + v3). assert (Hb2 : 0 <= b2 < 256) by (unfold b2; lia).
  cbn [length] in Hn. destruct (IH cs) with (a := ((a ++ [b0]) ++ [b1]) ++ [b2]) (rest := rest) as [E|(d & rest' & D1 & D2 & D3)].
  - lia.
  - assumption.
  - rewrite !zlen_app. change (zlen [_]) with 1. change (zlen [b1]) with 1. change (zlen [b2]) with 1. lia.
  - left. exact E.
  - right. exists (b0 :: b1 :: b2 :: d), rest'. splits.
    + repeat constructor; try (unfold is_byte; lia). exact D1.
    + rewrite base64_3 by (unfold is_byte; lia).
      replace (b0 / 4) with v0 by (unfold b0; lia). replace (b0 mod 4 * 16 + b1 / 16) with v1 by (unfold b0, b1; lia).
      replace (b1 mod 16 * 4 + b2 / 64) with v2 by (unfold b1, b2; lia). replace (b2 mod 64) with v3 by (unfold b2; lia). rewrite D2. reflexivity.
    + rewrite D3. rewrite <- !app_assoc. reflexivity.
Qed.

Lemma zlen_squeeze : forall t, zlen (squeeze t) <= zlen t.
Proof. induction t as [|c t IH]; [reflexivity|]. rewrite squeeze_cons, zlen_cons. destruct (isspace c); rewrite ?zlen_cons; lia. Qed.
Lemma base64_long : forall d, is_bytes d -> zlen d <= zlen (base64 d).
Proof. intros d H. rewrite zlen_base64 by assumption. pose proof (zlen_nonneg _ d). lia. Qed.

Lemma base64_inj : forall d1 d2, is_bytes d1 -> is_bytes d2 -> zlen d1 < 4294967295 -> zlen d2 < 4294967295 -> base64 d1 = base64 d2 -> d1 = d2.
Proof.
  intros d1 d2 H1 H2 L1 L2 E.
  destruct (pton_complete d1 H1 [] (repeat 0 (length d1 + length d2 + 2))) as [r1 E1]. { rewrite zlen_nil. lia. }
  destruct (pton_complete d2 H2 [] (repeat 0 (length d1 + length d2 + 2))) as [r2 E2]. { rewrite zlen_nil. lia. }
  rewrite E in E1. rewrite E1 in E2. cbn [app] in E2.
  assert (N : forall d : list Z, zlen d <= zlen d1 + zlen d2 -> (need (zlen d) <=? zlen (repeat 0 (length d1 + length d2 + 2))) = true).
  { intros d Hd. rewrite zlen_repeat. unfold need. destruct (zlen d mod 3 =? 0); unfold zlen in *; lia. }
  pose proof (zlen_nonneg _ d1). pose proof (zlen_nonneg _ d2).
  rewrite !N in E2 by lia. injection E2 as A B.
  assert (ztake (zlen d1) (d1 ++ r1) = ztake (zlen d1) (d2 ++ r2)) as C by (rewrite B; reflexivity).
  rewrite ztake_app_exact in C by reflexivity. rewrite ztake_app_exact in C by assumption. exact C.
Qed.

Theorem pton_spec : forall txt t, zlen txt < 4294967295 ->
  (exists d t', is_bytes d /\ squeeze txt = base64 d /\ need (zlen d) <= zlen t /\
                b64_pton txt t = POk (zlen d) t' /\ ztake (zlen d) t' = d)
  \/ (b64_pton txt t = PErr /\ forall d, is_bytes d -> squeeze txt = base64 d -> zlen t < need (zlen d)).
Proof.
  intros txt t Hl. unfold b64_pton. rewrite pton_squeeze. pose proof (zlen_squeeze txt) as LS.
  assert (C : forall d, is_bytes d -> squeeze txt = base64 d -> zlen d < 4294967295).
  { intros d Hd E. pose proof (base64_long d Hd). rewrite <- E in H. lia. }
  destruct (pton_sound (length (squeeze txt)) (squeeze txt) (le_n _) (squeeze_nows txt) [] t) as [E|(d & r' & D1 & D2 & D3)].
  { rewrite zlen_nil. lia. }
  - right. cbn [app] in E. rewrite zlen_nil in E. split; [exact E|]. intros d Hd Ed.
    destruct (pton_complete d Hd [] t) as [r E2]. { rewrite zlen_nil. specialize (C d Hd Ed). lia. }
    cbn [app] in E2. rewrite zlen_nil in E2. rewrite Ed, E2 in E. destruct (need (zlen d) <=? zlen t) eqn:N; [discriminate E|lia].
  - left. cbn [app] in D3. rewrite zlen_nil in D3. exists d, (d ++ r'). splits; auto.
    + destruct (pton_complete d D1 [] t) as [r E2]. { rewrite zlen_nil. specialize (C d D1 D2). lia. }
      cbn [app] in E2. rewrite zlen_nil in E2. rewrite D2, E2 in D3. destruct (need (zlen d) <=? zlen t) eqn:N; [lia|discriminate D3].
    + apply ztake_app_exact. reflexivity.
Qed.

(** ** The buffer functions *)
Lemma put_none : forall x, put x None = None.
Proof. reflexivity. Qed.
Lemma base64_nil : forall d, is_bytes d -> base64 d = [] -> d = [].
Proof.
  intros d Hd E. apply zlen_zero_nil. pose proof (base64_long d Hd) as L. rewrite E, zlen_nil in L.
  pose proof (zlen_nonneg _ d). lia.
Qed.

(** [sshbuf_put] of nothing succeeds on a buffer within its limit. *)
Lemma b64tod_spec : forall buf txt junk, zlen txt < 2147483648 -> zlen buf <= 134217728 ->
  (exists d, is_bytes d /\ squeeze txt = base64 d /\ sshbuf_b64tod buf txt junk = of_put (put d (Some buf)))
  \/ (sshbuf_b64tod buf txt junk = BErr SSH_ERR_INVALID_FORMAT /\ forall d, is_bytes d -> squeeze txt <> base64 d).
Proof.
  intros buf txt junk Hl Hb. unfold sshbuf_b64tod. destruct (zlen txt =? 0) eqn:E0.
  { left. assert (txt = []) as -> by (apply zlen_zero_nil; lia). exists []. splits; [constructor|reflexivity|].
    rewrite put_ok by (rewrite zlen_nil; lia). rewrite app_nil_r. reflexivity. }
  set (p := map _ _). assert (Lp : zlen p = zlen txt) by (unfold p, zlen; rewrite map_length, seq_length; reflexivity).
  destruct (pton_spec txt p) as [(d & t' & D1 & D2 & D3 & D4 & D5)|[E D]]. { lia. }
  - left. exists d. rewrite D4. cbv beta iota. rewrite D5. auto.
  - right. rewrite E. split; [reflexivity|]. intros d Hd Ed. specialize (D d Hd Ed). pose proof (zlen_squeeze txt) as LS.
    rewrite Ed, zlen_base64 in LS by assumption. rewrite Lp in D. pose proof (zlen_nonneg _ d). unfold need in D.
    destruct (zlen d mod 3 =? 0) eqn:M; lia.
Qed.

Lemma letters_nonwhite : forall d, is_bytes d -> Forall (fun c => isspace c = false) (base64 d).
Proof.
  intros d Hd. pattern d. revert d Hd. apply ind3.
  - constructor.
  - intros a Ha. unfold is_byte in Ha. rewrite base64_1 by assumption. repeat (constructor; [solve [reflexivity | apply letter_space; lia]|]). constructor.
  - intros a b Ha Hb. unfold is_byte in *. rewrite base64_2 by assumption. repeat (constructor; [solve [reflexivity | apply letter_space; lia]|]). constructor.
  - intros a b c r Ha Hb Hc Hr IH. unfold is_byte in *. rewrite base64_3 by assumption. repeat (constructor; [apply letter_space; lia|]). exact IH.
Qed.
Lemma squeeze_id : forall l, Forall (fun c => isspace c = false) l -> squeeze l = l.
Proof. induction l as [|c l IH]; intros H; [reflexivity|]. inversion H; subst. rewrite squeeze_cons, H2, IH; auto. Qed.
Lemma squeeze_app : forall a b, squeeze (a ++ b) = squeeze a ++ squeeze b.
Proof. intros. unfold squeeze. apply filter_app. Qed.

Lemma wrap_some : forall s i m b', wrap_go s i m = Some b' -> exists b, m = Some b.
Proof.
  induction s as [|c s IH]; intros i m b' H; cbn [wrap_go] in H.
  - destruct (u64 (i - 1) mod 70 =? 69); [eauto|]. apply put_some in H. destruct H as (b & -> & _). eauto.
  - apply IH in H. destruct H as [b H]. destruct (i mod 70 =? 69).
    + apply put_some in H. destruct H as (b1 & H & _). apply put_some in H. destruct H as (b2 & -> & _). eauto.
    + apply put_some in H. destruct H as (b1 & -> & _). eauto.
Qed.
Lemma wrap_folded : forall s i b b', wrap_go s i (Some b) = Some b' -> 0 <= i -> 0 < i + zlen s < 18446744073709551616 ->
  exists t, folded (i mod 70) s t /\ b' = b ++ t.
Proof.
  induction s as [|c s IH]; intros i b b' H Hi Hs; cbn [wrap_go] in H.
  - rewrite zlen_nil in Hs. assert (E : u64 (i - 1) = i - 1) by (unfold u64, U64; apply Z.mod_small; lia). rewrite E in H.
    destruct ((i - 1) mod 70 =? 69) eqn:E1.
    + injection H as <-. exists []. rewrite app_nil_r. split; [|reflexivity]. replace (i mod 70) with 0 by lia. constructor.
    + apply put_some in H. destruct H as (b1 & H1 & ->). injection H1 as <-. exists [10]. split; [|reflexivity]. constructor. lia.
  - rewrite zlen_cons in Hs. destruct (i mod 70 =? 69) eqn:E.
    + destruct (wrap_some _ _ _ _ H) as [b2 H2]. rewrite H2 in H. apply put_some in H2. destruct H2 as (b1 & H1 & ->). apply put_some in H1.
      destruct H1 as (b0 & H0 & ->). injection H0 as <-. apply IH in H; [|lia|lia]. destruct H as (t & T1 & ->).
      exists (c :: 10 :: t). rewrite <- !app_assoc. split; [|reflexivity]. replace (i mod 70) with 69 by lia. replace ((i + 1) mod 70) with 0 in T1 by lia. apply folded_full. exact T1.
    + destruct (wrap_some _ _ _ _ H) as [b1 H1]. rewrite H1 in H. apply put_some in H1. destruct H1 as (b0 & H0 & ->). injection H0 as <-.
      apply IH in H; [|lia|lia]. destruct H as (t & T1 & ->).
      exists (c :: t). rewrite <- app_assoc. split; [|reflexivity]. replace ((i + 1) mod 70) with (i mod 70 + 1) in T1 by lia. constructor; [lia|exact T1].
Qed.
Lemma wrap_fits : forall s i b, 0 <= i -> zlen b + 2 * zlen s + 1 <= 134217728 -> wrap_go s i (Some b) <> None.
Proof.
  induction s as [|c s IH]; intros i b Hi Hs; cbn [wrap_go].
  - rewrite zlen_nil in Hs. destruct (u64 (i - 1) mod 70 =? 69); [discriminate|]. rewrite put_ok by (change (zlen [10]) with 1; lia). discriminate.
  - rewrite zlen_cons in Hs. pose proof (zlen_nonneg _ s). rewrite put_ok by (change (zlen [c]) with 1; lia). destruct (i mod 70 =? 69).
    + rewrite put_ok by (rewrite zlen_app; change (zlen [10]) with 1; change (zlen [c]) with 1; lia). apply IH; [lia|].
      rewrite !zlen_app. change (zlen [10]) with 1. change (zlen [c]) with 1. lia.
    + apply IH; [lia|]. rewrite !zlen_app. change (zlen [c]) with 1. lia.
Qed.
Lemma folded_squeeze : forall col s t, folded col s t -> squeeze t = squeeze s.
Proof.
  intros col s t H. induction H; try reflexivity.
  - rewrite !squeeze_cons, IHfolded. reflexivity.
  - rewrite (squeeze_cons c), (squeeze_cons c), (squeeze_cons 10). change (isspace 10) with true. cbv iota. rewrite IHfolded. reflexivity.
Qed.

Lemma dtob64_cases : forall d b w, is_bytes d -> zlen d < 2147483648 ->
  sshbuf_dtob64 d b w =
  if zlen d =? 0 then BOk b else of_put (if w then wrap_go (base64 d) 0 (Some b) else put (base64 d) (Some b)).
Proof.
  intros d b w Hd Hl. unfold sshbuf_dtob64. replace (SIZE_MAX / 2 <=? zlen d) with false by (unfold SIZE_MAX, U64; lia).
  destruct (zlen d =? 0); [reflexivity|]. rewrite ntop_spec by assumption.
  pose proof (zlen_nonneg _ d). assert (u64 ((zlen d + 2) / 3 * 4 + 1) = (zlen d + 2) / 3 * 4 + 1) as -> by (unfold u64, U64; apply Z.mod_small; lia).
  rewrite zlen_base64 by assumption. replace ((zlen d + 2) / 3 * 4 <? (zlen d + 2) / 3 * 4 + 1) with true by lia. reflexivity.
Qed.

(** ** The URL-safe variant *)
Lemma url_letter : forall v, 0 <= v < 64 -> url_char (letter v) = nth (Z.to_nat v) url_alphabet 0.
Proof.
  intros v Hv. apply Z.eqb_eq. revert v Hv. apply (forall_below (fun v => url_char (letter v) =? nth (Z.to_nat v) url_alphabet 0) 64). vm_compute. reflexivity.
Qed.
Lemma sextets_ok : forall d, is_bytes d -> Forall (fun v => 0 <= v < 64) (sextets (flat_map (bits 8) d)).
Proof.
  assert (V : forall a b c d e f, 0 <= value [a; b; c; d; e; f] < 64). { intros [] [] [] [] [] []; vm_compute; split; congruence. }
  intros d Hd. pattern d. revert d Hd. apply ind3.
  - constructor.
  - intros a Ha. cbn [flat_map bits app]. cbn [sextets firstn repeat app]. repeat constructor; apply V.
  - intros a b Ha Hb. cbn [flat_map bits app]. cbn [sextets firstn repeat app]. repeat constructor; apply V.
  - intros a b c r Ha Hb Hc Hr IH. cbn [flat_map bits app]. cbn [sextets]. repeat (constructor; [apply V|]). exact IH.
Qed.
Lemma sextets_two : forall d, is_bytes d -> d <> [] -> exists x y r, sextets (flat_map (bits 8) d) = x :: y :: r.
Proof.
  intros [|a [|b d]] _ H; [congruence| |]; cbn [flat_map bits app]; cbn [sextets firstn repeat app].
  - eauto.
  - destruct d as [|c d]; cbn [flat_map bits app]; cbn [sextets firstn repeat app]; eauto.
Qed.
Lemma drop_pads_go : forall n l x y, (x =? 61) = false -> drop_pads (repeat 61 n ++ x :: y :: l) = Some (x :: y :: l).
Proof.
  induction n as [|n IH]; intros l x y H.
  - cbn [repeat app drop_pads]. unfold Pad64. rewrite H. reflexivity.
  - cbn [repeat app]. cbn [drop_pads]. destruct (repeat 61 n ++ x :: y :: l) eqn:E; [destruct n; discriminate E|]. rewrite <- E.
    change (61 =? Pad64) with true. cbv iota. apply IH. exact H.
Qed.
Lemma pads_repeat : forall n, exists k, pads n = repeat 61 k /\ rev (pads n) = repeat 61 k.
Proof.
  intros n. unfold pads. destruct (n mod 3 =? 0); [exists 0%nat; auto|]. destruct (n mod 3 =? 1); [exists 2%nat; auto|exists 1%nat; auto].
Qed.
Lemma dtourl_spec : forall d b, is_bytes d -> d <> [] -> zlen d < 90000000 ->
  sshbuf_dtourlb64 d b false = of_put (put (base64url d) (Some b)).
Proof.
  intros d b Hd Hn Hl. unfold sshbuf_dtourlb64. pose proof (zlen_nonneg _ d). rewrite dtob64_cases by (assumption || lia).
  destruct (zlen d =? 0) eqn:E0. { exfalso. apply Hn. apply zlen_zero_nil. lia. }
  rewrite put_ok by (rewrite zlen_nil, zlen_base64 by assumption; lia). cbn [of_put app].
  assert (D : drop_pads (rev (base64 d)) = Some (rev (map letter (sextets (flat_map (bits 8) d))))).
  { unfold base64. rewrite rev_app_distr. destruct (pads_repeat (zlen d)) as (k & _ & ->).
    pose proof (sextets_ok d Hd) as S. destruct (sextets_two d Hd Hn) as (x & y & r & E). rewrite E in *.
    destruct (exists_last (l := x :: y :: r)) as (l1 & z & E2); [discriminate|].
    destruct (exists_last (l := l1)) as (l2 & w & E3). { intros ->. cbn [app] in E2. discriminate E2. }
    rewrite E2, E3 in *. rewrite !map_app, !rev_app_distr. cbn [map rev app].
    apply drop_pads_go. apply letter_pad. rewrite Forall_app in S. destruct S as [_ S]. inversion S; subst. assumption. }
  rewrite D. rewrite rev_involutive, map_map. do 3 f_equal. unfold base64url. apply map_ext_in. intros v Hv.
  apply url_letter. pose proof (sextets_ok d Hd) as S. rewrite Forall_forall in S. apply S. exact Hv.
Qed.
