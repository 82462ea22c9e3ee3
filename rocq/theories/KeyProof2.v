(** Proofs for C77: certificates, and what their signed bytes determine. *)
From Coq Require Import String.
From Verif Require Import Base Text SshbufModel SshbufSpec SshbufProof WireSpec WireProof AddrModel MiscNumModel AuthOptModel Dec CertModel CertSpec CertProof AuthOptProof SigProof2 SigProof3 Base64Model KeyModel KeySpec KeyProof.
Local Open Scope Z_scope.

Lemma get_int_iff : forall w l v r, is_bytes l -> (get_int w l = Some (v, r) <-> l = be_enc w v ++ r /\ 0 <= v < 256 ^ Z.of_nat w).
Proof. intros w l v r Hb. split; [intros H; apply get_int_spec in H as (-> & V & _); auto|]. intros (-> & V). now apply get_int_enc. Qed.
Lemma pow8 : 256 ^ Z.of_nat 8 = 18446744073709551616. Proof. reflexivity. Qed.
Lemma pow4 : 256 ^ Z.of_nat 4 = 4294967296. Proof. reflexivity. Qed.

Section Key.
Variable point_ok : curve -> list Z -> bool.

Definition rest_of (t : tbs) (wid wp rsv cab : list Z) : list Z :=
  be_enc 8 (t_serial t) ++ be_enc 4 (t_type t) ++ wid ++ enc_string wp ++
  be_enc 8 (t_after t) ++ be_enc 8 (t_before t) ++ enc_string (t_crit t) ++ enc_string (t_ext t) ++ enc_string rsv ++ enc_string cab.
Definition fine (t : tbs) (wid wp rsv cab : list Z) (ca : kpub) : Prop :=
  word64 (t_serial t) /\ (t_type t = 1 \/ t_type t = 2) /\ ctext wid (t_id t) /\
  texts wp (t_principals t) /\ zlen (t_principals t) <= 256 /\ zlen wp <= 134217724 /\
  word64 (t_after t) /\ word64 (t_before t) /\ pairs (t_crit t) /\ zlen (t_crit t) <= 134217724 /\ pairs (t_ext t) /\ zlen (t_ext t) <= 134217724 /\
  zlen rsv <= 134217724 /\ is_plain point_ok cab ca /\ zlen cab <= 134217724.

Lemma says_split : forall signed p t ca, says point_ok signed p t ca <->
  exists wn name nonce w wid wp rsv cab, signed = wn ++ enc_string nonce ++ w ++ rest_of t wid wp rsv cab /\ ctext wn name /\ In name (cert_names p) /\ zlen nonce <= 134217724 /\ material point_ok p w /\ fine t wid wp rsv cab ca.
Proof.
  intros signed p t ca. unfold says, fine, rest_of. split.
  - intros (wn & name & nonce & w & wid & wp & rsv & cab & H). exists wn, name, nonce, w, wid, wp, rsv, cab. intuition.
  - intros (wn & name & nonce & w & wid & wp & rsv & cab & H). exists wn, name, nonce, w, wid, wp, rsv, cab. intuition.
Qed.
Variable ver : kpub -> list Z -> list Z -> bool.
Lemma cert_parse_iff : forall pre b c r, is_bytes b -> (cert_parse ver (ca_from_blob point_ok ver) b (pre ++ b) = Some (c, r) <->
  exists wid wp rsv cab sig, b = rest_of (kc_body c) wid wp rsv cab ++ enc_string sig ++ r /\ fine (kc_body c) wid wp rsv cab (kc_ca c) /\ zlen sig <= 134217724 /\
    ver (kc_ca c) sig (pre ++ rest_of (kc_body c) wid wp rsv cab) = true /\ made_with sig (kc_sigtype c) /\ kc_blob c = pre ++ b).
Proof.
  intros pre b c r Hb. split.
  - intros H. unfold cert_parse in H.
    destruct (get_int 8 b) as [[serial b1]|] eqn:G1; [|discriminate]. apply get_int_iff in G1 as (E1 & V1); [|assumption]. pose proof Hb as H1. rewrite E1 in H1. apply bytes_app in H1 as (_ & H1).
    destruct (get_int 4 b1) as [[type b2]|] eqn:G2; [|discriminate]. apply get_int_iff in G2 as (E2 & V2); [|assumption]. pose proof H1 as H2. rewrite E2 in H2. apply bytes_app in H2 as (_ & H2).
    destruct (get_cstr b2) as [[kid b3]|] eqn:G3; [|discriminate]. apply get_cstr_iff in G3 as (wid & C3 & E3); [|assumption]. pose proof H2 as H3. rewrite E3 in H3. apply bytes_app in H3 as (_ & H3).
    destruct (get_str b3) as [[pr b4]|] eqn:G4; [|discriminate]. apply get_str_iff in G4 as (E4 & L4); [|assumption]. pose proof H3 as H4. rewrite E4 in H4. apply bytes_app in H4 as (X4 & H4).
    destruct (get_int 8 b4) as [[after b5]|] eqn:G5; [|discriminate]. apply get_int_iff in G5 as (E5 & V5); [|assumption]. pose proof H4 as H5. rewrite E5 in H5. apply bytes_app in H5 as (_ & H5).
    destruct (get_int 8 b5) as [[before b6]|] eqn:G6; [|discriminate]. apply get_int_iff in G6 as (E6 & V6); [|assumption]. pose proof H5 as H6. rewrite E6 in H6. apply bytes_app in H6 as (_ & H6).
    destruct (get_str b6) as [[crit b7]|] eqn:G7; [|discriminate]. apply get_str_iff in G7 as (E7 & L7); [|assumption]. pose proof H6 as H7. rewrite E7 in H7. apply bytes_app in H7 as (X7 & H7).
    destruct (get_str b7) as [[exts b8]|] eqn:G8; [|discriminate]. apply get_str_iff in G8 as (E8 & L8); [|assumption]. pose proof H7 as H8. rewrite E8 in H8. apply bytes_app in H8 as (X8 & H8).
    destruct (get_str b8) as [[rsv b9]|] eqn:G9; [|discriminate]. apply get_str_iff in G9 as (E9 & L9); [|assumption]. pose proof H8 as H9. rewrite E9 in H9. apply bytes_app in H9 as (_ & H9).
    destruct (get_str b9) as [[cab b10]|] eqn:G10; [|discriminate]. apply get_str_iff in G10 as (E10 & L10); [|assumption]. pose proof H9 as H10. rewrite E10 in H10. apply bytes_app in H10 as (X10 & H10).
    cbv zeta in H. destruct (get_str b10) as [[sig b11]|] eqn:G11; [|discriminate]. apply get_str_iff in G11 as (E11 & L11); [|assumption]. pose proof H10 as H11. rewrite E11 in H11. apply bytes_app in H11 as (X11 & H11).
    unfold CERT_TYPE_USER, CERT_TYPE_HOST in H. destruct (negb (type =? 1) && negb (type =? 2)) eqn:T; [discriminate|].
    unfold enc_string in X4, X7, X8, X10, X11. apply bytes_app in X4 as (_ & X4). apply bytes_app in X7 as (_ & X7). apply bytes_app in X8 as (_ & X8). apply bytes_app in X10 as (_ & X10). apply bytes_app in X11 as (_ & X11).
    destruct (parse_principals (length pr) 0 pr) as [ps|] eqn:P; [|discriminate]. apply principals_iff in P as (P & LP); [|assumption|unfold zlen; lia|lia].
    destruct (pairs_ok (length crit) crit) eqn:PC; [|discriminate]. apply pairs_iff in PC; [|assumption|unfold zlen; lia]. cbn [negb] in H.
    destruct (pairs_ok (length exts) exts) eqn:PE; [|discriminate]. apply pairs_iff in PE; [|assumption|unfold zlen; lia]. cbn [negb] in H.
    destruct (ca_from_blob point_ok ver cab) as [cak|] eqn:CA; [|discriminate]. apply ca_iff in CA as (CN & CA); [|assumption]. rewrite CN in H.
    set (t := mkT serial type kid ps after before crit exts).
    assert (Eb : b = rest_of t wid pr rsv cab ++ b10). { unfold rest_of, t; cbn [t_serial t_type t_id t_principals t_after t_before t_crit t_ext]. rewrite <- !app_assoc. rewrite E1, E2, E3, E4, E5, E6, E7, E8, E9, E10. reflexivity. }
    assert (TK : ztake (zlen (pre ++ b) - zlen b10) (pre ++ b) = pre ++ rest_of t wid pr rsv cab). { rewrite Eb at 2. rewrite app_assoc. apply ztake_app_exact. rewrite Eb. rewrite !zlen_app. lia. }
    rewrite TK in H. destruct (ver (key_pub cak) sig (pre ++ rest_of t wid pr rsv cab)) eqn:V; [|discriminate]. cbn [negb] in H.
    destruct (get_sigtype sig) as [st|] eqn:S; [|discriminate]. apply sigtype_iff in S; [|assumption|lia].
    assert (Ec : c = mkKC t (key_pub cak) st (pre ++ b)) by (unfold t; congruence). assert (Er : r = b11) by congruence. clear H. subst c r. cbn [kc_body kc_ca kc_sigtype kc_blob].
    exists wid, pr, rsv, cab, sig. splits; auto; [rewrite Eb, E11; reflexivity|].
    unfold fine, word64, t. cbn [t_serial t_type t_id t_principals t_after t_before t_crit t_ext]. rewrite pow8 in *. rewrite pow4 in *. splits; auto; try lia.
  - intros (wid & wp & rsv & cab & sig & E & F & Ls & V & S & B). destruct c as [t ca st blob]. cbn [kc_body kc_ca kc_sigtype kc_blob] in *. subst blob.
    destruct F as (F1 & F2 & F3 & F4 & F5 & F6 & F7 & F8 & F9 & F10 & F11 & F12 & F13 & F14 & F15). unfold word64 in *.
    pose proof Hb as Hb0. rewrite E in Hb. unfold rest_of in Hb. rewrite <- !app_assoc in Hb.
    assert (TK : ztake (zlen (pre ++ b) - zlen (enc_string sig ++ r)) (pre ++ b) = pre ++ rest_of t wid wp rsv cab). { rewrite E. rewrite (app_assoc pre). apply ztake_app_exact. rewrite !zlen_app. lia. }
    unfold cert_parse. rewrite E at 1. unfold rest_of. rewrite <- !app_assoc.
    rewrite get_int_enc by (rewrite pow8; lia). apply bytes_app in Hb as (_ & Hb).
    rewrite get_int_enc by (rewrite pow4; lia). apply bytes_app in Hb as (_ & Hb).
    rewrite (proj2 (get_cstr_iff _ (t_id t) _ Hb)) by eauto. apply bytes_app in Hb as (_ & Hb).
    rewrite get_str_enc by lia. apply bytes_app in Hb as (X4 & Hb).
    rewrite get_int_enc by (rewrite pow8; lia). apply bytes_app in Hb as (_ & Hb).
    rewrite get_int_enc by (rewrite pow8; lia). apply bytes_app in Hb as (_ & Hb).
    rewrite get_str_enc by lia. apply bytes_app in Hb as (X7 & Hb).
    rewrite get_str_enc by lia. apply bytes_app in Hb as (X8 & Hb).
    rewrite get_str_enc by lia. apply bytes_app in Hb as (_ & Hb).
    rewrite get_str_enc by lia. apply bytes_app in Hb as (X10 & Hb). cbv zeta.
    rewrite get_str_enc by lia. apply bytes_app in Hb as (X11 & Hb).
    unfold CERT_TYPE_USER, CERT_TYPE_HOST. replace (negb (t_type t =? 1) && negb (t_type t =? 2)) with false by lia.
    unfold enc_string in X4, X7, X8, X10, X11. apply bytes_app in X4 as (_ & X4). apply bytes_app in X7 as (_ & X7). apply bytes_app in X8 as (_ & X8). apply bytes_app in X10 as (_ & X10). apply bytes_app in X11 as (_ & X11).
    rewrite (proj2 (principals_iff (length wp) wp 0 (t_principals t) X4 ltac:(unfold zlen; lia) ltac:(lia))) by (split; [assumption|lia]).
    rewrite (proj2 (pairs_iff (length (t_crit t)) _ X7 ltac:(unfold zlen; lia)) F9). cbn [negb].
    rewrite (proj2 (pairs_iff (length (t_ext t)) _ X8 ltac:(unfold zlen; lia)) F11). cbn [negb].
    rewrite (proj2 (ca_iff point_ok ver cab (mkKey ca None) X10)) by (cbn [key_cert key_pub]; auto). cbn [key_cert key_pub].
    rewrite TK, V. cbn [negb]. rewrite (proj2 (sigtype_iff sig st X11 ltac:(lia)) S). destruct t. reflexivity.
Qed.

Lemma internal_cert : forall b p c, is_bytes b -> (from_blob_internal point_ok ver (ca_from_blob point_ok ver) true b = Some (mkKey p (Some c)) <-> is_certificate point_ok ver b p c).
Proof.
  intros b p c Hb. unfold is_certificate. split.
  - intros H. unfold from_blob_internal in H. destruct (get_cstr b) as [[name r]|] eqn:G; [|discriminate]. destruct (type_from_name name) as [[f cert]|] eqn:T; [|discriminate].
    cbn [negb andb] in H. apply get_cstr_iff in G as (wn & Cn & E); [|assumption]. pose proof Hb as Hr. rewrite E in Hr. apply bytes_app in Hr as (_ & Hr). destruct cert.
    2:{ destruct (deserialize_public point_ok f name r) as [[p' r2]|]; [|discriminate]. destruct (negb (zlen r2 =? 0)); discriminate. }
    destruct (get_str r) as [[nonce r1]|] eqn:G; [|discriminate]. apply get_str_iff in G as (E1 & L1); [|assumption]. rewrite E1 in Hr. apply bytes_app in Hr as (_ & Hr).
    destruct (deserialize_public point_ok f name r1) as [[p' r2]|] eqn:D; [|discriminate]. apply deser_iff in D as (-> & N & w & E2 & M); [|assumption]. rewrite E2 in Hr. apply bytes_app in Hr as (_ & Hr).
    destruct (cert_parse ver (ca_from_blob point_ok ver) r2 b) as [[c' r3]|] eqn:P; [|discriminate]. destruct (zlen r3 =? 0) eqn:Z0; [|discriminate]. cbn [negb] in H. apply zlen_zero in Z0. subst r3.
    assert (p' = p) by congruence. assert (c' = c) by congruence. clear H. subst p' c'.
    assert (Eb : b = (wn ++ enc_string nonce ++ w) ++ r2) by (rewrite E, E1, E2, <- !app_assoc; reflexivity). rewrite Eb in P at 1. apply cert_parse_iff in P as (wid & wp & rsv & cab & sig & Er & F & Ls & V & S & B); [|assumption].
    rewrite app_nil_r in Er. exists ((wn ++ enc_string nonce ++ w) ++ rest_of (kc_body c) wid wp rsv cab), sig. splits; auto.
    + rewrite Eb, Er at 1. now rewrite <- !app_assoc.
    + apply (proj2 (says_split _ _ _ _)). exists wn, name, nonce, w, wid, wp, rsv, cab. rewrite <- !app_assoc. splits; auto. apply (names_iff name p true). auto.
    + now rewrite <- Eb in B.
  - intros (signed & sig & E & Ls & S & V & Sg & B). apply (proj1 (says_split _ _ _ _)) in S as (wn & name & nonce & w & wid & wp & rsv & cab & Es & Cn & In_ & Ln & M & F).
    assert (Eb : b = wn ++ enc_string nonce ++ w ++ rest_of (kc_body c) wid wp rsv cab ++ enc_string sig) by (rewrite E, Es, <- !app_assoc; reflexivity).
    apply (names_iff name p true) in In_ as (T & N). unfold from_blob_internal. pose proof Hb as Hb0. rewrite Eb in Hb.
    rewrite (proj2 (get_cstr_iff b name (enc_string nonce ++ w ++ rest_of (kc_body c) wid wp rsv cab ++ enc_string sig) Hb0)) by eauto. rewrite T. cbn [negb andb]. apply bytes_app in Hb as (_ & Hb).
    rewrite get_str_enc by lia. apply bytes_app in Hb as (_ & Hb). rewrite (proj2 (deser_iff point_ok (family_of p) name _ p (rest_of (kc_body c) wid wp rsv cab ++ enc_string sig) Hb)) by eauto. apply bytes_app in Hb as (_ & Hb).
    assert (P : cert_parse ver (ca_from_blob point_ok ver) (rest_of (kc_body c) wid wp rsv cab ++ enc_string sig) b = Some (c, [])).
    { assert (Eb' : b = (wn ++ enc_string nonce ++ w) ++ rest_of (kc_body c) wid wp rsv cab ++ enc_string sig) by (rewrite <- !app_assoc; exact Eb). rewrite Eb' at 1. apply cert_parse_iff; [assumption|].
      exists wid, wp, rsv, cab, sig. rewrite app_nil_r. splits; auto; [rewrite <- !app_assoc; now rewrite <- Es|now rewrite <- Eb']. }
    rewrite P. reflexivity.
Qed.
Lemma from_blob_iff : forall b k, is_bytes b -> (from_blob point_ok ver b = Some k <->
  zlen b <= 134217728 /\ match key_cert k with None => is_plain point_ok b (key_pub k) | Some c => is_certificate point_ok ver b (key_pub k) c end).
Proof.
  intros b [p c] Hb. unfold from_blob. change SSHBUF_SIZE_MAX with 134217728. cbn [key_cert key_pub]. destruct (134217728 <? zlen b) eqn:E.
  - split; [discriminate|]. intros (H & _). lia.
  - destruct c as [c|].
    + rewrite internal_cert by assumption. split; [intros H; split; [lia|assumption]|tauto].
    + rewrite internal_plain by assumption. split; [intros H; split; [lia|assumption]|tauto].
Qed.

(** ** The signed bytes determine the fields *)
Lemma rest_split : forall p w t wid wp rsv cab ca p' w' t' wid' wp' rsv' cab' ca' name name' x x',
  is_bytes (w ++ rest_of t wid wp rsv cab ++ x) -> name_fits name p -> name_fits name' p' -> name = name' -> family_of p = family_of p' ->
  material point_ok p w -> material point_ok p' w' -> fine t wid wp rsv cab ca -> fine t' wid' wp' rsv' cab' ca' ->
  w ++ rest_of t wid wp rsv cab ++ x = w' ++ rest_of t' wid' wp' rsv' cab' ++ x' -> p = p' /\ t = t' /\ ca = ca'.
Proof.
  intros p w t wid wp rsv cab ca p' w' t' wid' wp' rsv' cab' ca' name name' x x' Hb N N' <- Ef M M' F F' E.
  pose proof (proj2 (deser_iff point_ok (family_of p) name _ p (rest_of t wid wp rsv cab ++ x) Hb) (conj eq_refl (conj N (ex_intro _ w (conj eq_refl M))))) as D.
  pose proof (proj2 (deser_iff point_ok (family_of p) name _ p' (rest_of t' wid' wp' rsv' cab' ++ x') Hb) (conj Ef (conj N' (ex_intro _ w' (conj E M'))))) as D'.
  rewrite D in D'. assert (p = p') by congruence. assert (R : rest_of t wid wp rsv cab ++ x = rest_of t' wid' wp' rsv' cab' ++ x') by congruence. clear D D' E. subst p'. split; [reflexivity|].
  apply bytes_app in Hb as (_ & Hb). destruct F as (F1 & F2 & F3 & F4 & F5 & F6 & F7 & F8 & F9 & F10 & F11 & F12 & F13 & F14 & F15). destruct F' as (G1 & G2 & G3 & G4 & G5 & G6 & G7 & G8 & G9 & G10 & G11 & G12 & G13 & G14 & G15).
  unfold word64 in *. unfold rest_of in R, Hb. repeat rewrite <- app_assoc in R. repeat rewrite <- app_assoc in Hb.
  assert (I8 : forall a b u v, 0 <= a < 18446744073709551616 -> 0 <= b < 18446744073709551616 -> be_enc 8 a ++ u = be_enc 8 b ++ v -> a = b /\ u = v).
  { intros a b u v Ha Hb' EE. pose proof (get_int_enc 8 a u ltac:(rewrite pow8; lia)) as G. rewrite EE, get_int_enc in G by (rewrite pow8; lia). split; congruence. }
  assert (I4 : forall a b u v, 0 <= a < 4294967296 -> 0 <= b < 4294967296 -> be_enc 4 a ++ u = be_enc 4 b ++ v -> a = b /\ u = v).
  { intros a b u v Ha Hb' EE. pose proof (get_int_enc 4 a u ltac:(rewrite pow4; lia)) as G. rewrite EE, get_int_enc in G by (rewrite pow4; lia). split; congruence. }
  apply I8 in R as (S1 & R); [|assumption|assumption]. apply bytes_app in Hb as (_ & Hb).
  apply I4 in R as (S2 & R); [|lia|lia]. apply bytes_app in Hb as (_ & Hb).
  apply ctext_split with (a := t_id t) (b := t_id t') in R as (S3 & R); [|assumption|assumption|assumption].  apply bytes_app in Hb as (_ & Hb).
  apply enc_split in R as (S4 & R); [|lia|lia]. apply bytes_app in Hb as (X4 & Hb).
  apply I8 in R as (S5 & R); [|lia|lia]. apply bytes_app in Hb as (_ & Hb).
  apply I8 in R as (S6 & R); [|lia|lia]. apply bytes_app in Hb as (_ & Hb).
  apply enc_split in R as (S7 & R); [|lia|lia]. apply bytes_app in Hb as (_ & Hb).
  apply enc_split in R as (S8 & R); [|lia|lia]. apply bytes_app in Hb as (_ & Hb).
  apply enc_split in R as (S9 & R); [|lia|lia]. apply bytes_app in Hb as (_ & Hb).
  apply enc_split in R as (S10 & R); [|lia|lia]. apply bytes_app in Hb as (X10 & Hb).
  unfold enc_string in X4, X10. apply bytes_app in X4 as (_ & X4). apply bytes_app in X10 as (_ & X10). subst wp' cab'.
  pose proof (proj2 (principals_iff (length wp) wp 0 (t_principals t) X4 ltac:(unfold zlen; lia) ltac:(lia)) ltac:(split; [assumption|lia])) as P.
  pose proof (proj2 (principals_iff (length wp) wp 0 (t_principals t') X4 ltac:(unfold zlen; lia) ltac:(lia)) ltac:(split; [assumption|lia])) as P'.
  pose proof (proj2 (internal_plain point_ok ver (fun _ => None) false cab ca X10) F14) as K. pose proof (proj2 (internal_plain point_ok ver (fun _ => None) false cab ca' X10) G14) as K'.
  split; [|congruence]. destruct t, t'. cbn in *. congruence.
Qed.
Lemma says_unique : forall signed x x' signed' p t ca p' t' ca', is_bytes (signed ++ x) -> signed ++ x = signed' ++ x' -> says point_ok signed p t ca -> says point_ok signed' p' t' ca' -> p = p' /\ t = t' /\ ca = ca'.
Proof.
  intros signed x x' signed' p t ca p' t' ca' Hb E S S'. apply (proj1 (says_split _ _ _ _)) in S as (wn & name & nonce & w & wid & wp & rsv & cab & -> & Cn & In_ & Ln & M & F). apply (proj1 (says_split _ _ _ _)) in S' as (wn' & name' & nonce' & w' & wid' & wp' & rsv' & cab' & -> & Cn' & In_' & Ln' & M' & F').
  rewrite <- !app_assoc in E. rewrite <- !app_assoc in Hb. apply ctext_split with (a := name) (b := name') in E as (-> & E); auto. apply bytes_app in Hb as (_ & Hb). apply enc_split in E as (_ & E); auto. apply bytes_app in Hb as (_ & Hb).
  apply (names_iff name' p true) in In_ as (T & N). apply (names_iff name' p' true) in In_' as (T' & N'). apply (rest_split p w t wid wp rsv cab ca p' w' t' wid' wp' rsv' cab' ca' name' name' x x'); auto. congruence.
Qed.
End Key.
