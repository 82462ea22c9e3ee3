(** Reading typed fields off the front of a byte string.  These are the list
    forms of sshbuf_get_u8/u32/u64, sshbuf_get_string and sshbuf_get_cstring
    (sshbuf-getput-basic.c), as [WireProof.get_dec] and
    [WireProof.get_cstring_spec] relate them to the buffer model; an error keeps
    no detail.  Allocation failure is not modelled. *)
From Verif Require Import Base SshbufModel SshbufSpec SshbufProof WireSpec WireProof.

Definition get_int (w : nat) (l : list Z) : option (Z * list Z) :=
  if zlen l <? Z.of_nat w then None else Some (be_dec (ztake (Z.of_nat w) l), zdrop (Z.of_nat w) l).
Definition get_str (l : list Z) : option (list Z * list Z) :=
  match dec_string l with ROk p => Some p | RErr _ => None end.
(** The value as the C string the caller sees: a trailing NUL is not part of it. *)
Definition get_cstr (l : list Z) : option (list Z * list Z) :=
  match dec_cstring l with ROk (v, r) => Some (cstr v, r) | RErr _ => None end.

Lemma get_int_enc : forall w v rest, 0 <= v < 256 ^ Z.of_nat w -> get_int w (be_enc w v ++ rest) = Some (v, rest).
Proof.
  intros w v rest H. unfold get_int. rewrite zlen_app, zlen_be_enc. pose proof (zlen_nonneg Z rest).
  replace (Z.of_nat w + zlen rest <? Z.of_nat w) with false by lia.
  rewrite ztake_app_exact, zdrop_app_exact by now rewrite zlen_be_enc. now rewrite be_dec_enc_id.
Qed.
Lemma get_int_spec : forall w l v r, is_bytes l -> get_int w l = Some (v, r) -> l = be_enc w v ++ r /\ 0 <= v < 256 ^ Z.of_nat w /\ is_bytes r.
Proof.
  intros w l v r Hb H. unfold get_int in H. destruct (zlen l <? Z.of_nat w) eqn:E; [discriminate|]. injection H as <- <-.
  assert (T : zlen (ztake (Z.of_nat w) l) = Z.of_nat w) by (apply zlen_ztake; lia).
  split; [|split].
  - rewrite <- (ztake_zdrop _ (Z.of_nat w) l) at 1. f_equal.
    rewrite <- (be_enc_dec (ztake (Z.of_nat w) l)) at 1 by now apply is_bytes_ztake. f_equal. unfold zlen in T. lia.
  - pose proof (be_dec_bound (ztake (Z.of_nat w) l) ltac:(now apply is_bytes_ztake)) as B. now rewrite T in B.
  - now apply is_bytes_zdrop.
Qed.
Lemma get_int_none : forall w l, get_int w l = None <-> zlen l < Z.of_nat w.
Proof. intros w l. unfold get_int. destruct (zlen l <? Z.of_nat w) eqn:E; split; intros H; try discriminate; try lia; reflexivity. Qed.

Lemma get_str_enc : forall v rest, zlen v <= 134217724 -> get_str (enc_string v ++ rest) = Some (v, rest).
Proof. intros v rest H. unfold get_str. rewrite dec_string_ok; [reflexivity|]. change (SSHBUF_SIZE_MAX - 4) with 134217724. assumption. Qed.
Lemma get_str_spec : forall l v r, is_bytes l -> get_str l = Some (v, r) -> l = enc_string v ++ r /\ zlen v <= 134217724 /\ is_bytes v /\ is_bytes r.
Proof.
  intros l v r Hb H. unfold get_str in H. destruct (dec_string l) as [[v' r']|] eqn:E; [|discriminate]. injection H as -> ->.
  unfold dec_string in E. destruct (zlen l <? 4) eqn:E1; [discriminate|]. cbv zeta in E.
  destruct (SSHBUF_SIZE_MAX - 4 <? be_dec (ztake 4 l)) eqn:E2; [discriminate|].
  destruct (zlen (zdrop 4 l) <? be_dec (ztake 4 l)) eqn:E3; [discriminate|]. injection E as Ev Er.
  change (SSHBUF_SIZE_MAX - 4) with 134217724 in E2.
  assert (B4 : is_bytes (ztake 4 l)) by now apply is_bytes_ztake. pose proof (be_dec_bound _ B4) as BB.
  assert (T : zlen (ztake 4 l) = 4) by (apply zlen_ztake; lia).
  assert (L : zlen v = be_dec (ztake 4 l)) by (subst v; apply zlen_ztake; lia).
  split; [|split; [lia|]].
  - unfold enc_string. rewrite L. replace 4%nat with (length (ztake 4 l)) by (unfold zlen in T; lia). rewrite be_enc_dec by assumption.
    rewrite <- app_assoc. rewrite <- Ev, <- Er. now rewrite !ztake_zdrop.
  - subst v r. split; [apply is_bytes_ztake|apply is_bytes_zdrop]; now apply is_bytes_zdrop.
Qed.
Lemma cstr_id : forall v, ~ In 0 v -> cstr v = v.
Proof. induction v as [|b v IH]; intros H; [reflexivity|]. cbn. destruct (b =? 0) eqn:E; [exfalso; apply H; left; lia|]. f_equal. apply IH. intros K. apply H. now right. Qed.
Lemma get_cstr_enc : forall v rest, zlen v <= 134217724 -> ~ In 0 v -> get_cstr (enc_string v ++ rest) = Some (v, rest).
Proof.
  intros v rest H Hn. unfold get_cstr, dec_cstring. rewrite dec_string_ok; [|change (SSHBUF_SIZE_MAX - 4) with 134217724; assumption].
  replace (nul_ok v) with true; [now rewrite cstr_id|]. symmetry. apply nul_ok_spec. now left.
Qed.
Lemma get_cstr_no_nul : forall l v r, get_cstr l = Some (v, r) -> ~ In 0 v.
Proof. intros l v r H. unfold get_cstr in H. destruct (dec_cstring l) as [[v' r']|]; [|discriminate]. injection H as <- <-. apply cstr_no_nul. Qed.
Lemma get_cstr_str : forall l v r, get_cstr l = Some (v, r) -> exists v', get_str l = Some (v', r) /\ v = cstr v' /\ (v' = v \/ v' = v ++ [0]).
Proof.
  intros l v r H. unfold get_cstr, dec_cstring in H. unfold get_str. destruct (dec_string l) as [[v' r']|]; [|discriminate].
  destruct (nul_ok v') eqn:E; [|discriminate]. injection H as <- <-. exists v'. split; [reflexivity|]. split; [reflexivity|].
  apply nul_ok_spec in E. destruct E as [E|(s & Hs & ->)]; [left; now rewrite cstr_id|]. right. f_equal. clear - Hs.
  induction s as [|b s IH]; [reflexivity|]. cbn. destruct (b =? 0) eqn:E; [exfalso; apply Hs; left; lia|]. f_equal. apply IH. intros K. apply Hs. now right.
Qed.
