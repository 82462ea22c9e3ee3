(** A small concrete cipher, MAC and compressor.  They are not secure; they show
    that the demands the packet theorems make of ciphers can be met in every
    framing mode, and let the model be run on examples. *)
From Verif Require Import Base PacketModel PacketSpec PacketProof.

(** Shift every byte by a running position (a stream cipher). *)
Fixpoint shift (sign pos : Z) (l : list Z) : list Z :=
  match l with [] => [] | b :: r => u8 (b + sign * pos) :: shift sign (pos + 1) r end.
Fixpoint sum (l : list Z) : Z := match l with [] => 0 | b :: r => b + sum r end.
Definition toy_tag (seq n : Z) (l : list Z) : list Z := repeat (u8 (sum l + seq)) (Z.to_nat n).

Definition toy_crypt (c : bool * Z) (seq : Z) (src : list Z) (len aad auth : Z) : option (list Z * (bool * Z)) :=
  let '(enc, pos) := c in
  let a := ztake aad src in
  let x := ztake len (zdrop aad src) in
  if enc then
    let y := shift 1 pos x in Some (a ++ y ++ toy_tag seq auth (a ++ y), (enc, pos + zlen x))
  else
    if beqb (zdrop (aad + len) src) (toy_tag seq auth (a ++ x)) then
      Some (a ++ shift (-1) pos x, (enc, pos + zlen x))
    else None.

Definition toy : prims := mkPrims (bool * Z) unit
  (fun _ e => Some (e, 0))
  toy_crypt
  (fun _ _ l => if zlen l <? 4 then None else Some (be_dec (ztake 4 l)))
  (fun k seq l => repeat (u8 (sum l + seq + sum (m_key (k_mac k)))) 32)
  tt (fun z l => if zlen l <? 134217728 then Some (120 :: l, z) else None)
  (fun z l => match l with [] => None | _ :: r => Some (r, z) end)
  (fun s n => s + n).

Definition toy_R (s r : bool * Z) : Prop := s = (true, snd r) /\ fst r = false.

Lemma zlen_shift : forall sg l p, zlen (shift sg p l) = zlen l.
Proof. induction l as [|b l IH]; intros p; cbn [shift]; [reflexivity|]. now rewrite !zlen_cons, IH. Qed.
Lemma shift_app : forall sg a b p, shift sg p (a ++ b) = shift sg p a ++ shift sg (p + zlen a) b.
Proof.
  induction a as [|x a IH]; intros b p; cbn [shift app]; [now rewrite zlen_nil, Z.add_0_r|].
  rewrite IH, zlen_cons. do 3 f_equal. lia.
Qed.
Lemma unshift : forall l p, is_bytes l -> shift (-1) p (shift 1 p l) = l.
Proof.
  induction l as [|b l IH]; intros p H; cbn [shift]; [reflexivity|]. inversion H; subst. rewrite IH by assumption. f_equal.
  unfold u8, U8, is_byte in *. rewrite Zplus_mod_idemp_l. replace (b + 1 * p + -1 * p) with b by lia. apply Z.mod_small. assumption.
Qed.
Lemma zlen_tag : forall s n l, 0 <= n -> zlen (toy_tag s n l) = n.
Proof. intros. unfold toy_tag. rewrite zlen_repeat. lia. Qed.

Lemma toy_inverse : forall block aad auth, 8 <= block -> (aad = 0 \/ aad = 4) -> 0 <= auth -> (aad = 0 -> auth = 0) ->
  inverse_cipher toy block aad auth toy_R.
Proof.
  intros block aad auth Hb Ha Hu Hu0. split; cbn [toy p_crypt p_getlen CS].
  - intros [e pos] sq src len out s' Hl Hm H. unfold toy_crypt in H.
    assert (0 <= len \/ len < 0) as [Hp|Hn] by lia.
    2:{ exfalso. pose proof (zlen_nonneg _ src). assert (len >= -4) by lia. assert (E : len mod block = len + block) by (symmetry; apply Z.mod_unique with (-1); lia). lia. }
    assert (Lx : zlen (ztake len (zdrop aad src)) = len) by (apply zlen_ztake; rewrite zlen_zdrop by lia; lia).
    assert (La : zlen (ztake aad src) = aad) by (apply zlen_ztake; lia).
    destruct e.
    + injection H as <- <-. rewrite !zlen_app, zlen_shift, zlen_tag, Lx, La by assumption. lia.
    + destruct (beqb _ _) eqn:E; [|discriminate]. injection H as <- <-. apply beqb_eq' in E.
      assert (L0 : zlen (zdrop (aad + len) src) = 0) by (rewrite zlen_zdrop by lia; lia). rewrite E, zlen_tag in L0 by assumption.
      rewrite !zlen_app, zlen_shift, Lx, La. lia.
  - intros Ha0 [e pos] [e' pos'] sq src len out s' [HR1 HR2] Hbs Hl Hm H. cbn [snd fst] in *. injection HR1 as -> ->. subst e'.
    assert (Hp : 0 <= len). { pose proof (zlen_nonneg _ src). destruct (Z_lt_dec len 0); [|lia]. exfalso. assert (E : len mod block = len + block) by (symmetry; apply Z.mod_unique with (-1); lia). lia. }
    unfold toy_crypt in H |- *. injection H as <- <-.
    assert (Lx : zlen (ztake len (zdrop aad src)) = len) by (apply zlen_ztake; rewrite zlen_zdrop by lia; lia).
    assert (La : zlen (ztake aad src) = aad) by (apply zlen_ztake; lia).
    set (a := ztake aad src) in *. set (x := ztake len (zdrop aad src)) in *. set (y := shift 1 pos' x).
    assert (Ly : zlen y = len) by (unfold y; rewrite zlen_shift; assumption).
    rewrite (ztake_app_exact _ aad) by lia. rewrite (zdrop_app_exact _ aad) by lia. rewrite (ztake_app_exact _ len) by lia.
    rewrite app_assoc. rewrite (zdrop_app_exact _ (aad + len)) by (rewrite zlen_app; lia). rewrite beqb_refl'.
    eexists. split.
    + f_equal. f_equal. unfold y. rewrite unshift by (apply is_bytes_ztake; now apply is_bytes_zdrop).
      unfold a, x. rewrite (ztake_all _ len) by (rewrite zlen_zdrop by lia; lia). apply ztake_zdrop.
    + unfold toy_R. cbn [snd fst]. rewrite Ly, Lx. auto.
  - intros Ha0 [e pos] [e' pos'] sq sq1 src len out s' [HR1 HR2] Hbs Hl Hm Hge H. cbn [snd fst] in *. injection HR1 as -> ->. subst e'.
    rewrite (Hu0 Ha0) in *. unfold toy_crypt in H |- *. injection H as <- <-. rewrite !ztake_0, !zdrop_0. cbn [app].
    assert (T0 : forall s l, toy_tag s 0 l = []) by reflexivity. rewrite !T0, !app_nil_r.
    rewrite (ztake_all _ len src) by lia.
    assert (Lb : zlen (ztake block src) = block) by (apply zlen_ztake; lia).
    assert (Es : shift 1 pos' src = shift 1 pos' (ztake block src) ++ shift 1 (pos' + block) (zdrop block src)).
    { rewrite <- (ztake_zdrop _ block src) at 1. rewrite shift_app, Lb. reflexivity. }
    rewrite Es. rewrite (ztake_app_exact _ block) by (rewrite zlen_shift; lia). rewrite (zdrop_app_exact _ block) by (rewrite zlen_shift; lia).
    rewrite !Z.add_0_l. rewrite !(ztake_all _ block (shift 1 pos' (ztake block src))) by (rewrite zlen_shift; lia).
    assert (Lr : zlen (zdrop block src) = len - block) by (rewrite zlen_zdrop by lia; lia).
    rewrite (zdrop_all _ block (shift 1 pos' (ztake block src))) by (rewrite zlen_shift; lia). cbn [beqb].
    do 2 eexists. split; [|split].
    + f_equal. f_equal. apply unshift. now apply is_bytes_ztake.
    + rewrite !(zlen_shift), Lb. rewrite (ztake_all _ (len - block)) by (rewrite zlen_shift; lia).
      rewrite (zdrop_all _ (len - block)) by (rewrite zlen_shift; lia). cbn [beqb]. f_equal. f_equal.
      apply unshift. now apply is_bytes_zdrop.
    + unfold toy_R. cbn [snd fst]. rewrite zlen_shift, Lr. split; [f_equal; lia|reflexivity].
  - intros Ha0 [e pos] [e' pos'] sq src len out s' tail [HR1 HR2] Hbs Hl Hm H. cbn [snd fst] in *. injection HR1 as -> ->.
    assert (A4 : aad = 4) by lia. rewrite A4 in *. pose proof (zlen_nonneg _ src).
    assert (Hp : 0 <= len). { destruct (Z_lt_dec len 0); [|lia]. exfalso. assert (E : len mod block = len + block) by (symmetry; apply Z.mod_unique with (-1); lia). lia. }
    unfold toy_crypt in H. injection H as <- <-. assert (La : zlen (ztake 4 src) = 4) by (apply zlen_ztake; lia).
    rewrite (ztake_app_exact _ 4 (ztake 4 src)) by lia. rewrite zlen_app, La. pose proof (zlen_nonneg _ tail).
    replace (4 + zlen tail <? 4) with false by lia. rewrite (ztake_app_exact _ 4 (ztake 4 src)) by lia. reflexivity.
  - intros r sq l Hl. replace (zlen l <? 4) with true by lia. reflexivity.
Qed.

Lemma toy_comp : inverse_comp toy (fun _ _ => True).
Proof.
  intros s r x y s' _ H Hx. cbn [toy p_deflate p_inflate] in *. destruct (zlen x <? 134217728) eqn:E; [|discriminate]. injection H as <- <-.
  split; [constructor; [unfold is_byte; lia|assumption]|]. pose proof (zlen_nonneg _ x). split; [rewrite zlen_cons; lia|]. eauto.
Qed.

Definition mac_on (etm : bool) : mac := mkMac true etm 16 [1; 2; 3].
Definition keys_eam : keys := mkKeys 16 0 true false [9] (mac_on false) false false.
Definition keys_etm : keys := mkKeys 8 0 false false [9] (mac_on true) false false.
Definition keys_aead : keys := mkKeys 16 16 false false [9] (mkMac true false 0 []) true true.
Definition toy_dir (enc : bool) (ok : option keys) (sq : Z) : dir toy := mkDir toy ok (enc, 0) sq 0 0 0 0 tt.
Definition toy_tx (ok : option keys) (sq : Z) : tx toy := mkTx toy (toy_dir true ok sq) 0 [] 0 [].
Definition toy_rx (ok : option keys) (sq : Z) : rx toy := mkRx toy (toy_dir false ok sq) [] [] 0 0.
