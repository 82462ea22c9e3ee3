(** Proofs for C33-C35. *)
From Coq Require Import String.
From Verif Require Import Base Text SshbufModel SshbufSpec WireSpec WireProof MatchModel MiscNumModel MiscNumSpec MiscNumProof AddrModel PermitModel PermitProof Dec AuthOptModel AuthOptSpec.

(** ** Merging *)
Lemma merge_some : forall p a m, sshauthopt_merge p a = Some m ->
  (forall r, flag r m = optflag_and (flag r) p a) /\ a_verify m = optflag_or a_verify p a /\ a_expiry m = merge_expiry p a /\
  merge_cmd p a = Some (a_cmd m) /\ a_tun m = (if a_tun p =? -1 then a_tun a else a_tun p) /\
  a_env m = list_else (a_env p) (a_env a) /\ a_open m = list_else (a_open p) (a_open a) /\ a_listen m = list_else (a_listen p) (a_listen a) /\
  a_from_cert m = or_else (a_from_cert p) (a_from_cert a) /\ a_from_keys m = or_else (a_from_keys p) (a_from_keys a) /\
  a_ca m = 0 /\ a_princ m = None /\ a_restricted m = 0.
Proof.
  intros p a m H. unfold sshauthopt_merge in H. destruct (merge_cmd p a) as [c|] eqn:E; [|discriminate]. injection H as <-.
  split; [intros []; reflexivity|]. repeat split; reflexivity.
Qed.
Lemma and_one : forall f p a, optflag_and f p a <> 0 <-> f p = 1 /\ f a = 1.
Proof. intros f p a. unfold optflag_and, zb. destruct (f p =? 1) eqn:E1, (f a =? 1) eqn:E2; cbn [andb]; split; intros; try lia. Qed.
Lemma or_one : forall f p a, optflag_or f p a <> 0 <-> f p = 1 \/ f a = 1.
Proof. intros f p a. unfold optflag_or, zb. destruct (f p =? 1) eqn:E1, (f a =? 1) eqn:E2; cbn [orb]; split; intros; try lia. Qed.
Lemma merge_bits : forall p a m, sshauthopt_merge p a = Some m -> bits m.
Proof.
  intros p a m H. destruct (merge_some _ _ _ H) as (F & V & _). unfold bits, bit. rewrite V. unfold optflag_or, zb.
  split; [intros r; rewrite F; unfold optflag_and, zb; destruct (_ && _); auto|destruct (_ || _); auto].
Qed.
Lemma merge_none : forall p a, sshauthopt_merge p a = None <-> exists x y, a_cmd p = Some x /\ a_cmd a = Some y /\ x <> y.
Proof.
  intros p a. unfold sshauthopt_merge, merge_cmd. destruct (a_cmd p) as [x|], (a_cmd a) as [y|]; try destruct (beqb x y) eqn:E; split; intros H; try discriminate; try reflexivity;
    try (destruct H as (x0 & y0 & H1 & H2 & H3); try discriminate).
  - injection H1 as <-. injection H2 as <-. apply beqb_eq in E. contradiction.
  - exists x, y. apply beqb_neq in E. auto.
Qed.
Lemma merge_cmd_iff : forall p a m c, sshauthopt_merge p a = Some m -> (a_cmd m = Some c <-> a_cmd p = Some c \/ a_cmd a = Some c).
Proof.
  intros p a m c H. destruct (merge_some _ _ _ H) as (_ & _ & _ & C & _). revert C. unfold merge_cmd.
  destruct (a_cmd p) as [x|], (a_cmd a) as [y|]; try destruct (beqb x y) eqn:E; intros C; try discriminate; injection C as C; rewrite <- C.
  - apply beqb_eq in E. subst y. tauto.
  - split; [auto|intros [K|K]; [assumption|discriminate]].
  - split; [auto|intros [K|K]; [discriminate|assumption]].
  - split; [discriminate|intros [K|K]; discriminate].
Qed.

Lemma login_app : forall l1 l2 o, login o (l1 ++ l2) = match login o l1 with Some o1 => login o1 l2 | None => None end.
Proof. induction l1 as [|x l1 IH]; intros l2 o; cbn [login app]; [reflexivity|]. destruct (auth_activate_options o x); [apply IH|reflexivity]. Qed.
Lemma login_grant : forall l o m r, login o l = Some m -> granted r m -> granted r o /\ forall x, In x l -> granted r x.
Proof.
  induction l as [|x l IH]; intros o m r H G; cbn [login] in H; [injection H as ->; split; [assumption|intros ? []]|].
  unfold auth_activate_options in H. destruct (sshauthopt_merge o x) as [o1|] eqn:E; [|discriminate].
  destruct (IH _ _ r H G) as [G1 G2]. unfold granted in G1. destruct (merge_some _ _ _ E) as (F & _). rewrite F in G1. apply and_one in G1. unfold granted.
  split; [lia|]. intros y [<- |Hy]; [lia|auto]. now apply G2.
Qed.
Lemma login_cmd : forall l o m c, login o l = Some m -> (a_cmd m = Some c <-> a_cmd o = Some c \/ exists x, In x l /\ a_cmd x = Some c).
Proof.
  induction l as [|x l IH]; intros o m c H; cbn [login] in H.
  - injection H as ->. split; [auto|intros [K|(x & [] & _)]; assumption].
  - unfold auth_activate_options in H. destruct (sshauthopt_merge o x) as [o1|] eqn:E; [|discriminate].
    rewrite (IH _ _ c H), (merge_cmd_iff _ _ _ c E). split.
    + intros [[K|K]|(y & Hy & K)]; [auto|right; exists x; cbn; auto|right; exists y; cbn; auto].
    + intros [K|(y & [<- |Hy] & K)]; [auto|auto|]. right. exists y. auto.
Qed.
Lemma login_verify : forall l o m, bits o -> login o l = Some m -> (exists x, (x = o \/ In x l) /\ a_verify x = 1) -> a_verify m = 1.
Proof.
  induction l as [|x l IH]; intros o m B H K; cbn [login] in H.
  - injection H as ->. destruct K as (x & [-> |[]] & K). assumption.
  - unfold auth_activate_options in H. destruct (sshauthopt_merge o x) as [o1|] eqn:E; [|discriminate].
    apply (IH o1 m (merge_bits _ _ _ E) H). destruct (merge_some _ _ _ E) as (_ & V & _).
    assert (V1 : a_verify o = 1 \/ a_verify x = 1 -> a_verify o1 = 1).
    { intros Q. rewrite V. unfold optflag_or, zb. destruct (a_verify o =? 1) eqn:E1, (a_verify x =? 1) eqn:E2; cbn [orb]; lia. }
    destruct K as (y & [-> |[<- |Hy]] & K); [exists o1; auto|exists o1; auto|exists y; auto].
Qed.

(** ** Serialising *)
Lemma put_some : forall x m b', put x m = Some b' -> exists b, m = Some b /\ b' = b ++ x.
Proof. intros x [b|] b' H; cbn [put] in H; [|discriminate]. destruct (SSHBUF_SIZE_MAX <? zlen b + zlen x); [discriminate|]. injection H as <-. eauto. Qed.
Lemma put_str_some : forall x m b', put_str x m = Some b' -> zlen x <= 134217724 /\ exists b, m = Some b /\ b' = b ++ enc_string x.
Proof.
  intros x m b' H. unfold put_str in H. change (SSHBUF_SIZE_MAX - 4) with 134217724 in H. destruct (134217724 <? zlen x) eqn:E; [discriminate|].
  split; [lia|now apply put_some].
Qed.
Definition enc_nul (s : option (list Z)) : list Z :=
  be_enc 1 (u8 (match s with None => 1 | Some _ => 0 end)) ++ enc_string (match s with Some x => x | None => [] end).
Definition onul (s : option (list Z)) : Prop := match s with Some x => zlen x <= 134217724 | None => True end.
Lemma nul_some : forall s m b', serialise_nullable s m = Some b' -> onul s /\ exists b, m = Some b /\ b' = b ++ enc_nul s.
Proof.
  intros s m b' H. unfold serialise_nullable in H. apply put_str_some in H as (L & b & H & ->). apply put_some in H as (b0 & -> & ->).
  split; [destruct s; [assumption|exact I]|]. exists b0. split; [reflexivity|]. unfold enc_nul. now rewrite app_assoc.
Qed.
Lemma des_nul : forall s rest, onul s -> ocstring s -> deserialise_nullable (enc_nul s ++ rest) = Some (s, rest).
Proof.
  intros s rest L N. unfold deserialise_nullable, enc_nul. rewrite <- app_assoc.
  destruct s as [x|]; (rewrite get_int_enc; [|unfold u8, U8; rewrite Z.mod_small; lia]); cbn [onul ocstring] in *.
  - rewrite get_cstr_enc by assumption. reflexivity.
  - rewrite get_cstr_enc; [reflexivity|unfold zlen; cbn; lia|intros []].
Qed.
Definition enc_all (l : list (list Z)) : list Z := concat (map enc_string l).
Definition small (l : list (list Z)) : Prop := Forall (fun x => zlen x <= 134217724) l.
Lemma put_all_some : forall l m b', put_all l m = Some b' -> small l /\ exists b, m = Some b /\ b' = b ++ enc_all l.
Proof.
  induction l as [|x l IH]; intros m b' H; cbn [put_all] in H.
  - split; [constructor|]. exists b'. unfold enc_all. cbn. rewrite app_nil_r. auto.
  - apply IH in H as (S & b & H & ->). apply put_str_some in H as (L & b0 & -> & ->). split; [constructor; assumption|].
    exists b0. unfold enc_all. cbn [map concat]. now rewrite app_assoc.
Qed.
Definition enc_arr (l : list (list Z)) : list Z := be_enc 4 (zlen l) ++ enc_string (enc_all l).
Definition arr_ok (l : list (list Z)) : Prop := zlen l <= 2147483647 /\ small l /\ zlen (enc_all l) <= 134217724.
Lemma arr_some : forall l m b', serialise_array l m = Some b' -> arr_ok l /\ exists b, m = Some b /\ b' = b ++ enc_arr l.
Proof.
  intros l m b' H. unfold serialise_array in H. destruct (INT_MAX <? zlen l) eqn:E; [discriminate|]. unfold INT_MAX in E.
  destruct (put_all l (Some [])) as [b|] eqn:Ep; [|discriminate]. apply put_all_some in Ep as (S & b0 & Eb & ->). injection Eb as <-. cbn [app] in H.
  apply put_str_some in H as (L & b1 & H & ->). apply put_some in H as (b2 & -> & ->). split; [repeat split; [lia|assumption|assumption]|].
  exists b2. split; [reflexivity|]. unfold enc_arr. rewrite <- app_assoc, u32_id; [reflexivity|]. pose proof (zlen_nonneg _ l). unfold U32. lia.
Qed.
Lemma get_cstrs_enc : forall l, small l -> Forall cstring l -> get_cstrs (length l) (enc_all l) = Some l.
Proof.
  induction l as [|x l IH]; intros S C; [reflexivity|]. inversion S as [|? ? Sx Sl]; inversion C as [|? ? Cx Cl]; subst.
  unfold enc_all. cbn [length get_cstrs map concat]. rewrite get_cstr_enc by assumption. fold (enc_all l). now rewrite IH.
Qed.
Lemma zlen_enc_string : forall x, zlen (enc_string x) = 4 + zlen x.
Proof. intros x. unfold enc_string. now rewrite zlen_app, zlen_be_enc. Qed.
Lemma zlen_enc_all : forall l, 4 * zlen l <= zlen (enc_all l).
Proof.
  induction l as [|x l IH]; [unfold zlen; cbn; lia|]. unfold enc_all. cbn [map concat]. fold (enc_all l). rewrite zlen_app, zlen_enc_string, zlen_cons.
  pose proof (zlen_nonneg _ x). lia.
Qed.
Lemma des_arr : forall l rest, arr_ok l -> Forall cstring l -> deserialise_array (enc_arr l ++ rest) = Some (l, rest).
Proof.
  intros l rest (L & S & B) C. pose proof (zlen_nonneg _ l) as P. pose proof (zlen_enc_all l) as Q. unfold deserialise_array, enc_arr. rewrite <- app_assoc.
  rewrite get_int_enc by (change (256 ^ Z.of_nat 4) with 4294967296; lia). rewrite get_str_enc by assumption. unfold INT_MAX.
  replace (2147483647 <? zlen l) with false by lia. replace (zlen (enc_all l) <? zlen l) with false by lia.
  replace (Z.to_nat (zlen l)) with (length l) by (unfold zlen; lia). now rewrite get_cstrs_enc.
Qed.

Definition enc_head (o : aopt) : list Z :=
  be_enc 1 (u8 (a_port o)) ++ be_enc 1 (u8 (a_agent o)) ++ be_enc 1 (u8 (a_x11 o)) ++ be_enc 1 (u8 (a_pty o)) ++ be_enc 1 (u8 (a_rc o)) ++
  be_enc 1 (u8 (a_restricted o)) ++ be_enc 1 (u8 (a_ca o)) ++ be_enc 1 (u8 (a_notouch o)) ++ be_enc 1 (u8 (a_verify o)) ++
  be_enc 8 (u64 (a_expiry o)) ++ be_enc 1 (u8 (zb (a_tun o =? -1))) ++ be_enc 4 (u32 (if a_tun o <? 0 then 0 else a_tun o)).
Definition enc_opt (o : aopt) : list Z :=
  enc_head o ++ enc_nul (a_princ o) ++ enc_nul (a_cmd o) ++ enc_nul (a_from_cert o) ++ enc_nul (a_from_keys o) ++
  enc_arr (a_env o) ++ enc_arr (a_open o) ++ enc_arr (a_listen o).
Definition fits (o : aopt) : Prop :=
  onul (a_princ o) /\ onul (a_cmd o) /\ onul (a_from_cert o) /\ onul (a_from_keys o) /\
  arr_ok (a_env o) /\ arr_ok (a_open o) /\ arr_ok (a_listen o).
Lemma serialise_some : forall o u m0 m, sshauthopt_serialise o u m0 = Some m ->
  let o' := if u then censored o else o in m = m0 ++ enc_opt o' /\ fits o'.
Proof.
  intros o u m0 m H. unfold sshauthopt_serialise, put_u8, put_u32, put_u64 in H. cbv zeta in H.
  apply arr_some in H as (A1 & b1 & H & ->). apply arr_some in H as (A2 & b2 & H & ->). apply arr_some in H as (A3 & b3 & H & ->).
  apply nul_some in H as (N1 & b4 & H & ->). apply nul_some in H as (N2 & b5 & H & ->). apply nul_some in H as (N3 & b6 & H & ->). apply nul_some in H as (N4 & b7 & H & ->).
  apply put_some in H as (c1 & H & ->). apply put_some in H as (c2 & H & ->). apply put_some in H as (c3 & H & ->).
  apply put_some in H as (c4 & H & ->). apply put_some in H as (c5 & H & ->). apply put_some in H as (c6 & H & ->).
  apply put_some in H as (c7 & H & ->). apply put_some in H as (c8 & H & ->). apply put_some in H as (c9 & H & ->).
  apply put_some in H as (c10 & H & ->). apply put_some in H as (c11 & H & ->). apply put_some in H as (c12 & H & ->). injection H as <-.
  cbv zeta. unfold enc_opt, enc_head, fits. destruct u; cbn [censored a_port a_agent a_x11 a_pty a_rc a_restricted a_expiry a_ca a_princ a_tun a_cmd a_env a_open a_listen a_from_cert a_from_keys a_notouch a_verify];
    (split; [now rewrite <- !app_assoc|auto 10]).
Qed.
Lemma des_opt : forall o rest, storable o -> fits o -> sshauthopt_deserialise (enc_opt o ++ rest) = Some (o, rest).
Proof.
  intros o rest S F. unfold storable, byteflag in S. destruct S as (S1 & S2 & S3 & S4 & S5 & S6 & S7 & S8 & S9 & S10 & S11 & S12 & S13 & S14 & S15 & S16 & S17 & S18).
  destruct F as (F1 & F2 & F3 & F4 & F5 & F6 & F7).
  unfold sshauthopt_deserialise, enc_opt, enc_head. rewrite <- !app_assoc.
  assert (U : forall v, 0 <= v < 256 -> 0 <= u8 v < 256 ^ Z.of_nat 1 /\ u8 v = v) by (intros v Hv; rewrite u8_id by (unfold U8; lia); split; [change (256 ^ Z.of_nat 1) with 256; lia|reflexivity]).
  do 9 (rewrite get_int_enc by (apply U; assumption); cbn [bind]).
  rewrite get_int_enc by (rewrite u64_id by (unfold U64; lia); change (256 ^ Z.of_nat 8) with 18446744073709551616; lia). cbn [bind].
  rewrite get_int_enc by (apply U; unfold zb; destruct (a_tun o =? -1); lia). cbn [bind].
  rewrite get_int_enc by (rewrite u32_id by (unfold U32; destruct (a_tun o <? 0) eqn:?; lia); change (256 ^ Z.of_nat 4) with 4294967296; destruct (a_tun o <? 0) eqn:?; lia). cbn [bind].
  rewrite !des_nul by assumption. cbn [bind]. do 3 (rewrite des_nul by assumption; cbn [bind]).
  do 3 (rewrite des_arr by assumption; cbn [bind]).
  rewrite !(fun v H => proj2 (U v H)) by (assumption || (unfold zb; destruct (a_tun o =? -1); lia)).
  rewrite u64_id by (unfold U64; lia). rewrite u32_id by (unfold U32; destruct (a_tun o <? 0) eqn:?; lia).
  destruct o as [f1 f2 f3 f4 f5 f6 f7 f8 f9 tn f11 f12 f13 f14 f15 f16 f17 f18]; cbn [a_port a_agent a_x11 a_pty a_rc a_restricted a_expiry a_ca a_princ a_tun a_cmd a_env a_open a_listen a_from_cert a_from_keys a_notouch a_verify] in *.
  do 2 f_equal. f_equal. unfold zb, to_int. destruct (tn =? -1) eqn:E; [replace (1 =? 0) with false by reflexivity; lia|]. change (0 =? 0) with true. cbv iota.
  destruct (tn <? 0) eqn:E2; [lia|]. destruct (2147483648 <=? tn) eqn:E3; lia.
Qed.
