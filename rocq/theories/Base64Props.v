(** C54: base64 text and byte strings are the same thing. *)
From Coq Require Import String.
From Verif Require Import Base SshbufModel AuthOptModel Base64Model Base64Spec Base64Proof AuthOptProof KrlProof5.

(** b64_ntop writes exactly the base64 text when the buffer has room for it and
    a terminator, and otherwise refuses; it never writes past the buffer. *)
Theorem C54_encode : forall d n, is_bytes d ->
  (zlen (base64 d) < n -> b64_ntop d n = NOk (base64 d)) /\
  (n <= zlen (base64 d) -> b64_ntop d n = NErr).
Proof.
  intros d n H. rewrite ntop_spec by assumption. destruct (zlen (base64 d) <? n) eqn:E; split; intros; try reflexivity; lia.
Qed.
Print Assumptions C54_encode.
Example C54_encode_ex : b64_ntop (bs "any carnal pleas") 25 = NOk (bs "YW55IGNhcm5hbCBwbGVhcw==") /\
  b64_ntop (bs "any carnal pleas") 24 = NErr /\ b64_ntop [255; 254; 253] 5 = NOk (bs "//79").
Proof. vm_compute. auto. Qed.

(** b64_pton accepts a text if and only if, white space aside, it is the base64
    text of some bytes for which the buffer has room (one spare byte when the
    last group is short); then it stores exactly those bytes and returns their
    number.  Every other text is refused, and no access is out of bounds. *)
Theorem C54_decode : forall txt t, zlen txt < 4294967295 ->
  (exists d t', is_bytes d /\ squeeze txt = base64 d /\
     (if zlen d mod 3 =? 0 then zlen d else zlen d + 1) <= zlen t /\
     b64_pton txt t = POk (zlen d) t' /\ ztake (zlen d) t' = d)
  \/ (b64_pton txt t = PErr /\
      forall d, is_bytes d -> squeeze txt = base64 d -> zlen t < (if zlen d mod 3 =? 0 then zlen d else zlen d + 1)).
Proof. exact pton_spec. Qed.
Print Assumptions C54_decode.
Example C54_decode_ex :
  b64_pton (bs "YW5 5IE E=  =") [9; 9; 9; 9; 9; 9; 9] = PErr /\
  b64_pton (bs "YW5 5IA=  = ") [9; 9; 9; 9; 9; 9; 9] = POk 4 [97; 110; 121; 32; 0; 9; 9] /\
  b64_pton (bs "YW55IB==") [9; 9; 9; 9; 9; 9; 9] = PErr /\
  b64_pton (bs "YW5$") [9; 9; 9; 9] = PErr /\ b64_pton (bs "YW55IA==x") [9; 9; 9; 9; 9; 9; 9] = PErr /\
  b64_pton (bs "YW55IA==") [9; 9; 9; 9] = PErr.
Proof. vm_compute. auto 10. Qed.

(** Two different byte strings never have the same text. *)
Theorem C54_injective : forall d1 d2, is_bytes d1 -> is_bytes d2 ->
  zlen d1 < 4294967295 -> zlen d2 < 4294967295 -> base64 d1 = base64 d2 -> d1 = d2.
Proof. exact base64_inj. Qed.
Print Assumptions C54_injective.

(** The buffer functions: what sshbuf_dtob64 appends to an empty buffer, wrapped
    or not, is the text (in lines of 70 characters when wrapped), and
    sshbuf_b64tod turns it into the same bytes again. *)
Theorem C54_round_trip : forall d w, is_bytes d -> zlen d < 50000000 ->
  exists t, sshbuf_dtob64 d [] w = BOk t /\ (if w then folded 0 (base64 d) t else t = base64 d) /\
  forall buf junk, zlen buf + zlen d <= 134217728 -> sshbuf_b64tod buf t junk = BOk (buf ++ d).
Proof.
  intros d w Hd Hl. pose proof (zlen_nonneg _ d) as L0. rewrite dtob64_cases by (assumption || lia).
  pose proof (zlen_base64 d Hd) as LB.
  assert (F : forall t, squeeze t = base64 d -> zlen t < 2147483648 -> forall buf junk, zlen buf + zlen d <= 134217728 -> sshbuf_b64tod buf t junk = BOk (buf ++ d)).
  { intros t Ht Lt buf junk Hb. destruct (b64tod_spec buf t junk) as [(d' & D1 & D2 & D3)|[_ E]]; [lia|lia| |exfalso; apply (E d); assumption].
    assert (d' = d) as ->. { apply base64_inj; auto; [|lia|congruence]. pose proof (base64_long d' D1). rewrite <- D2, Ht in H. lia. }
    rewrite D3, put_ok by assumption. reflexivity. }
  destruct (zlen d =? 0) eqn:E0.
  { assert (d = []) as -> by (apply zlen_zero_nil; lia). exists []. splits; [reflexivity| |].
    - destruct w; [constructor|reflexivity].
    - intros. apply F; auto; reflexivity. }
  destruct w.
  - destruct (wrap_go (base64 d) 0 (Some [])) as [b|] eqn:E.
    2:{ exfalso. revert E. apply wrap_fits; [lia|]. rewrite zlen_nil. lia. }
    pose proof E as E1. apply wrap_folded in E; [|lia|lia]. destruct E as (t & T1 & ->). change (0 mod 70) with 0 in T1. exists t. splits; [reflexivity|exact T1|].
    intros. apply F; auto.
    + rewrite (folded_squeeze _ _ _ T1). apply squeeze_id. apply letters_nonwhite. assumption.
    + assert (G : forall col s u, folded col s u -> zlen u <= 2 * zlen s + 1).
      { intros col s u G. induction G; rewrite ?zlen_cons, ?zlen_nil; lia. }
      apply G in T1. lia.
  - rewrite put_ok by (rewrite zlen_nil; lia). exists (base64 d). splits; [reflexivity|reflexivity|].
    intros. apply F; auto; [|lia]. apply squeeze_id. apply letters_nonwhite. assumption.
Qed.
Print Assumptions C54_round_trip.
Example C54_round_trip_ex : sshbuf_dtob64 (repeat 65 54) [] true =
  BOk (bs "QUFBQUFBQUFBQUFBQUFBQUFBQUFBQUFBQUFBQUFBQUFBQUFBQUFBQUFBQUFBQUFBQUFBQU" ++ [10] ++ bs "FB" ++ [10]) /\
  sshbuf_b64tod [1] (bs "QUFBQUE=") (fun i => i) = BOk (1 :: repeat 65 5).
Proof. vm_compute. auto. Qed.

(** sshbuf_b64tod: any text it accepts is the base64 text of what it appends,
    and every text that is not base64 is refused without an out-of-bounds access. *)
Theorem C54_strict : forall buf txt junk, zlen txt < 2147483648 -> zlen buf <= 134217728 ->
  (forall b, sshbuf_b64tod buf txt junk = BOk b -> exists d, is_bytes d /\ squeeze txt = base64 d /\ b = buf ++ d) /\
  ((forall d, is_bytes d -> squeeze txt <> base64 d) -> sshbuf_b64tod buf txt junk = BErr SSH_ERR_INVALID_FORMAT) /\
  sshbuf_b64tod buf txt junk <> BUb.
Proof.
  intros buf txt junk Hl Hb. destruct (b64tod_spec buf txt junk Hl Hb) as [(d & D1 & D2 & D3)|[E D]].
  - rewrite D3. splits.
    + intros b H. destruct (put d (Some buf)) as [b'|] eqn:P; [|discriminate H]. injection H as <-.
      apply put_some in P. destruct P as (b0 & P & ->). injection P as <-. exists d. auto.
    + intros H. exfalso. exact (H d D1 D2).
    + destruct (put d (Some buf)); discriminate.
  - rewrite E. splits; [intros; discriminate|reflexivity|discriminate].
Qed.
Print Assumptions C54_strict.
(** Stray characters and non-zero trailing bits in particular. *)
Theorem C54_stray : forall d c, is_bytes d -> In c (base64 d) -> In c alphabet \/ c = 61.
Proof.
  assert (L : forall v, 0 <= v < 64 -> In (letter v) alphabet). { intros v Hv. unfold letter. apply nth_In. change (length alphabet) with 64%nat. lia. }
  intros d c Hd H. unfold base64 in H. apply in_app_or in H. destruct H as [H|H].
  - left. apply in_map_iff in H. destruct H as (v & <- & H). apply L. pose proof (sextets_ok d Hd) as S. rewrite Forall_forall in S. auto.
  - right. unfold pads in H. destruct (zlen d mod 3 =? 0); [destruct H|]. destruct (zlen d mod 3 =? 1); cbn in H; intuition.
Qed.
Print Assumptions C54_stray.
Example C54_strict_ex : sshbuf_b64tod [] (bs "QUF*") (fun i => i) = BErr SSH_ERR_INVALID_FORMAT /\
  sshbuf_b64tod [] (bs "QR==") (fun i => i) = BErr SSH_ERR_INVALID_FORMAT /\ sshbuf_b64tod [] (bs "QQ==") (fun i => i) = BOk [65] /\
  sshbuf_b64tod [] (bs "QQ=") (fun i => i) = BErr SSH_ERR_INVALID_FORMAT.
Proof. vm_compute. auto. Qed.

(** sshbuf_dtourlb64 without wrapping appends the URL-safe text without padding. *)
Theorem C54_url : forall d b, is_bytes d -> d <> [] -> zlen d < 90000000 -> zlen b + zlen (base64url d) <= 134217728 ->
  sshbuf_dtourlb64 d b false = BOk (b ++ base64url d).
Proof. intros d b Hd Hn Hl Hb. rewrite dtourl_spec by assumption. rewrite put_ok by assumption. reflexivity. Qed.
Print Assumptions C54_url.
Example C54_url_ex : sshbuf_dtourlb64 [251; 255; 254; 1] (bs "x") false = BOk (bs "x-__-AQ").
Proof. reflexivity. Qed.
(** With wrapping the padding is kept (it stands before the last newline), so the
    result is not URL-safe text. *)
Theorem C54_url_wrapped_refuted : exists d t, is_bytes d /\ sshbuf_dtourlb64 d [] true = BOk t /\ In 61 t.
Proof. exists [0], (bs "AA==" ++ [10]). splits; [repeat constructor; unfold is_byte; lia|reflexivity|cbn; auto]. Qed.
Print Assumptions C54_url_wrapped_refuted.
