(** C78: private key files. *)
From Coq Require Import String.
From Verif Require Import Base Text SshbufModel SshbufSpec SshbufProof WireSpec WireProof AddrModel MiscNumModel AuthOptModel Dec CertModel CertSpec CertProof AuthOptProof SigModel SigProof2 SigProof3 Base64Model Base64Spec Base64Proof Base64Props KeyModel KeySpec KeyProof KeyProof2 KeyProof3 PrivModel PrivSpec PrivProof PrivProof2 PrivProof3 PrivProof4.
Local Open Scope Z_scope.

Section Priv.
Variable point_ok : curve -> list Z -> bool.
Variable ver : kpub -> list Z -> list Z -> bool.
Variable scalar_ok : curve -> list Z -> bool.
Variable rsa_ok : list Z -> list Z -> list Z -> list Z -> list Z -> list Z -> bool.
Variable kdf : list Z -> list Z -> Z -> Z -> option (list Z).
Variable dec : list Z -> list Z -> list Z -> dres.
Let parse := parse_private2 point_ok ver scalar_ok rsa_ok kdf dec.
Let hold := holds point_ok ver scalar_ok rsa_ok kdf dec.

Section Bytes.
Hypothesis dec_bytes : forall cn key ct x, is_bytes ct -> dec cn key ct = DOk x -> is_bytes x.
(** A file is read exactly when it is of the published form and the passphrase opens
    it; the key, the secret and the comment are those that stand in it, and the public
    key outside the encrypted section is the one inside. *)
Theorem C78_accepts : forall junk file want pass k s comment, zlen file <= 134217728 ->
  (parse junk file want pass = Good (k, s, comment) <-> hold file pass k s comment /\ forall f, want = Some f -> f = family_of (key_pub k)).
Proof. exact (parse_iff point_ok ver scalar_ok rsa_ok kdf dec dec_bytes). Qed.
(** With a passphrase a file holds one key, one secret and one comment. *)
Theorem C78_unique : forall file pass k s comment k' s' comment', zlen file <= 134217728 -> hold file pass k s comment -> hold file pass k' s' comment' -> k = k' /\ s = s' /\ comment = comment'.
Proof.
  intros file pass k s comment k' s' comment' L H H'. assert (E : parse (fun _ => 0) file None pass = Good (k, s, comment)) by (apply C78_accepts; [assumption|split; [assumption|discriminate]]).
  assert (E' : parse (fun _ => 0) file None pass = Good (k', s', comment')) by (apply C78_accepts; [assumption|split; [assumption|discriminate]]). splits; congruence.
Qed.
(** The public key can be had without the passphrase, and it is the same. *)
Theorem C78_public : forall junk file want pass k s comment, zlen file <= 134217728 ->
  parse junk file want pass = Good (k, s, comment) -> parse_private2_pubkey point_ok ver junk file want = Some k.
Proof.
  intros junk file want pass k s comment L H. apply C78_accepts in H as ((d & cn & kn & kd & pb & ct & x & T & En & O & F & S) & W); [|assumption]. destruct (envelope_magic _ _ _ _ _ _ En) as (d' & ->).
  unfold parse_private2_pubkey. rewrite (proj2 (uudecode_iff junk file d' L) T). assert (B : is_bytes (magic ++ d')) by (destruct T as (? & ? & _ & _ & B & _); exact B). apply bytes_app in B as (_ & B).
  apply envelope_head in En as (n & (wc & wk & -> & C1 & C2 & L1 & L2 & L3) & _).
  destruct (get_str_of_cstr _ cn (wk ++ enc_string kd ++ be_enc 4 1 ++ enc_string pb ++ be_enc 4 n ++ ct) (proj2 (get_cstr_iff _ _ _ B) (ex_intro _ wc (conj C1 eq_refl)))) as (v1 & ->). apply bytes_app in B as (_ & B).
  destruct (get_str_of_cstr _ kn (enc_string kd ++ be_enc 4 1 ++ enc_string pb ++ be_enc 4 n ++ ct) (proj2 (get_cstr_iff _ _ _ B) (ex_intro _ wk (conj C2 eq_refl)))) as (v2 & ->). apply bytes_app in B as (_ & B).
  rewrite (proj2 (get_str_iff _ kd (be_enc 4 1 ++ enc_string pb ++ be_enc 4 n ++ ct) B)) by auto. apply bytes_app in B as (_ & B).
  rewrite (proj2 (get4_iff _ 1 (enc_string pb ++ be_enc 4 n ++ ct) B)) by (split; [reflexivity|lia]). apply bytes_app in B as (_ & B). change (negb (1 =? 1)) with false. cbv iota.
  rewrite (proj2 (get_str_iff _ pb (be_enc 4 n ++ ct) B)) by auto. rewrite F. destruct want as [f|]; [|reflexivity]. rewrite (W f eq_refl). now destruct (family_of (key_pub k)).
Qed.
(** A wrong passphrase is told from a damaged file: none given for a protected file, a
    tag that does not verify, or check bytes that differ. *)
Theorem C78_wrong : forall junk file want pass d cn kn kd pb ct k, zlen file <= 134217728 -> text_of file d -> envelope d cn kn kd pb ct -> from_blob point_ok ver pb = Some k ->
  (pass = [] -> kn = bs "bcrypt" -> parse junk file want pass = Wrong) /\
  (forall key, kn = bs "bcrypt" -> pass <> [] -> cn <> bs "none" -> derives kdf cn kd pass key -> dec cn key ct = DMac -> parse junk file want pass = Wrong) /\
  (forall c c' x, opens kdf dec cn kn kd pass ct (be_enc 4 c ++ be_enc 4 c' ++ x) -> 0 <= c < 4294967296 -> 0 <= c' < 4294967296 -> c <> c' -> parse junk file want pass = Wrong).
Proof.
  intros junk file want pass d cn kn kd pb ct k L T En F. destruct (envelope_magic _ _ _ _ _ _ En) as (d' & ->). unfold parse, parse_private2. rewrite (proj2 (uudecode_iff junk file d' L) T). assert (B : is_bytes (magic ++ d')) by (destruct T as (? & ? & _ & _ & B & _); exact B). apply bytes_app in B as (_ & B).
  apply envelope_head in En as (n & Hh & (block & keys & tag & S & Lb & M & ZL)). destruct (head_bytes _ _ _ _ _ _ _ B Hh) as (Bk & Bp & Bc). rewrite (head_eval point_ok ver scalar_ok rsa_ok kdf dec d' pass _ _ _ _ _ _ _ B Hh F). unfold rest_of2. rewrite F.
  pose proof (sizes_pos _ _ _ _ S) as (Sb & St & _). pose proof S as S'. apply sizes_cipher in S' as (ci & -> & <- & <- & <-). splits.
  - intros -> ->. reflexivity.
  - intros key -> NP NC D E. change (negb (beqb (bs "bcrypt") (bs "none")) && negb (beqb (bs "bcrypt") (bs "bcrypt"))) with false. change (beqb (bs "bcrypt") (bs "none")) with false. cbn [andb negb]. replace (is_nil pass) with false by (destruct pass; [congruence|reflexivity]). cbn [andb].
    replace (n <? ci_block ci) with false by lia. rewrite (proj2 (mult_iff n (ci_block ci) ltac:(lia)) M). cbn [negb orb]. rewrite (proj2 (key_for_iff kdf cn kd pass _ _ _ key Bk S) D).
    replace (zlen ct <? ci_auth ci) with false by lia. replace (zlen ct - ci_auth ci <? n) with false by lia. cbn [orb]. rewrite <- ZL, ztake_all. unfold decrypt. destruct (beqb cn (bs "none")) eqn:Q; [apply beqb_eq in Q; congruence|]. rewrite E. reflexivity.
  - intros c c' x O Lc Lc' NE.
    assert (A : exists key, key_for kdf cn kn kd pass (ci_key ci + ci_iv ci) = Some key /\ decrypt dec cn key ct = DOk (be_enc 4 c ++ be_enc 4 c' ++ x) /\ (negb (beqb kn (bs "none")) && negb (beqb kn (bs "bcrypt"))) = false /\
      (beqb kn (bs "none") && negb (beqb cn (bs "none"))) = false /\ (is_nil pass && negb (beqb kn (bs "none"))) = false).
    { destruct O as [(-> & -> & E)|(-> & P & key & D & E)].
      - exists (repeat 0 (Z.to_nat (ci_key ci + ci_iv ci))). splits; auto; [unfold decrypt; rewrite beqb_refl; now rewrite E|]. rewrite beqb_refl. apply andb_false_r.
      - exists key. splits; auto; [now apply (proj2 (key_for_iff kdf cn kd pass _ _ _ key Bk S))| |].
        + unfold decrypt. destruct (beqb cn (bs "none")); [now rewrite E|assumption].
        + destruct pass; [congruence|reflexivity]. }
    assert (B0 : is_bytes (be_enc 4 c ++ be_enc 4 c' ++ x)) by (eapply opens_bytes; eauto).
    destruct A as (key & -> & D & -> & -> & ->). replace (n <? ci_block ci) with false by lia. rewrite (proj2 (mult_iff n (ci_block ci) ltac:(lia)) M). cbn [negb orb].
    replace (zlen ct <? ci_auth ci) with false by lia. replace (zlen ct - ci_auth ci <? n) with false by lia. cbn [orb]. rewrite <- ZL, ztake_all, zdrop_none, D. change (negb (zlen (@nil Z) =? 0)) with false. cbv iota.
    rewrite (proj2 (get4_iff _ c (be_enc 4 c' ++ x) B0)) by auto. apply bytes_app in B0 as (_ & B0). rewrite (proj2 (get4_iff _ c' x B0)) by auto. replace (c =? c') with false by lia. reflexivity.
Qed.

Variable enc : list Z -> list Z -> list Z -> option (list Z).
(** What is written is read back with the passphrase it was written with. *)
Theorem C78_round_trip : forall salt check k s pass comment cipher rounds out junk, sound point_ok ver k -> proper_secret scalar_ok rsa_ok (key_pub k) s -> is_bytes salt -> is_bytes comment -> ~ In 0 comment -> rounds < 2147483648 -> inverse dec enc ->
  private_to_blob2 kdf enc salt check k s pass comment cipher rounds = Some out -> parse junk out None pass = Good (k, s, comment).
Proof.
  intros salt check k s pass comment cipher rounds out junk W Ws Bs Bc N0 LR IV H. apply out_holds with (point_ok := point_ok) (ver := ver) (scalar_ok := scalar_ok) (rsa_ok := rsa_ok) (dec := dec) in H as (H & L); auto.
  apply C78_accepts; [assumption|]. split; [assumption|discriminate].
Qed.
End Bytes.

(** Of the secret, the comment and the check bytes, a file written with a passphrase
    shows no more than the cipher does: with a cipher that shows the length only, two
    files for the same key are the same when the lengths are. *)
Theorem C78_protected : forall enc salt k s s' w w' pass comment comment' check check' cipher rounds,
  (forall cn key x y, zlen x = zlen y -> enc cn key x = enc cn key y) -> pass <> [] -> cipher <> Some (bs "none") ->
  private_serialize k s = Some w -> private_serialize k s' = Some w' -> zlen w = zlen w' -> zlen comment = zlen comment' ->
  private_to_blob2 kdf enc salt check k s pass comment cipher rounds = private_to_blob2 kdf enc salt check' k s' pass comment' cipher rounds.
Proof. intros enc. intros. eapply hidden; eassumption. Qed.

(** The private form of a key alone, as in an agent's request: it is taken exactly when
    it is of the published form, and just as much is taken as belongs to it. *)
Theorem C78_section : forall b k s r, is_bytes b ->
  (private_deserialize point_ok ver scalar_ok rsa_ok b = Some (k, s, r) <-> exists w, b = w ++ r /\ private_part point_ok ver scalar_ok rsa_ok k s w).
Proof. exact (private_iff point_ok ver scalar_ok rsa_ok). Qed.
Theorem C78_section_round_trip : forall k s w r, sound point_ok ver k -> proper_secret scalar_ok rsa_ok (key_pub k) s -> is_bytes r -> private_serialize k s = Some w ->
  private_deserialize point_ok ver scalar_ok rsa_ok (w ++ r) = Some (k, s, r).
Proof.
  intros k s w r W Ws Br H. apply private_out with (point_ok := point_ok) (ver := ver) (scalar_ok := scalar_ok) (rsa_ok := rsa_ok) in H as (H & Bw); auto. apply C78_section; [apply is_bytes_app; auto|]. exists w. auto.
Qed.
End Priv.
Print Assumptions C78_accepts.
Print Assumptions C78_unique.
Print Assumptions C78_public.
Print Assumptions C78_wrong.
Print Assumptions C78_round_trip.
Print Assumptions C78_protected.
Print Assumptions C78_section.
Print Assumptions C78_section_round_trip.

(** Examples: an Ed25519 key with no passphrase, and with one and a toy cipher. *)
Definition ex_key : key := mkKey (PEd (repeat 7 32)) None.
Definition ex_secret : secret := SEd (repeat 5 32 ++ repeat 7 32).
Definition toy_kdf (pass salt : list Z) (rounds n : Z) : option (list Z) := Some (ztake n (pass ++ salt ++ repeat rounds 100)).
Definition toy_enc (cn key x : list Z) : option (list Z) := match cipher_by_name cn with Some ci => Some (map (fun c => (255 - c)) x ++ repeat 9 (Z.to_nat (ci_auth ci))) | None => None end.
Definition toy_dec (cn key ct : list Z) : dres :=
  match cipher_by_name cn with Some ci => let n := zlen ct - ci_auth ci in if beqb (zdrop n ct) (repeat 9 (Z.to_nat (ci_auth ci))) then DOk (map (fun c => (255 - c)) (ztake n ct)) else DMac | None => DErr end.
Definition no_points (c : curve) (pt : list Z) : bool := false.
Definition no_ver (p : kpub) (s m : list Z) : bool := false.
Definition any_scalar (c : curve) (d : list Z) : bool := true.
Definition any_rsa (e n d i p q : list Z) : bool := true.
Definition is_good {A} (r : res A) : bool := match r with Good _ => true | _ => false end.
Definition is_wrong {A} (r : res A) : bool := match r with Wrong => true | _ => false end.
Lemma toy_bytes : forall cn key ct x, is_bytes ct -> toy_dec cn key ct = DOk x -> is_bytes x.
Proof.
  intros cn key ct x B H. unfold toy_dec in H. destruct (cipher_by_name cn); [|discriminate]. cbv zeta in H. destruct (beqb _ _); [|discriminate]. assert (E : map (fun c => 255 - c) (ztake (zlen ct - ci_auth c) ct) = x) by congruence. rewrite <- E.
  apply Forall_forall. intros y Hy. apply in_map_iff in Hy as (z & <- & Hz). unfold ztake in Hz. unfold is_bytes in B. rewrite Forall_forall in B. assert (In z ct) by (rewrite <- (firstn_skipn (Z.to_nat (zlen ct - ci_auth c)) ct); apply in_or_app; now left). apply B in H0. unfold is_byte in *. lia.
Qed.
Lemma toy_inverse : inverse toy_dec toy_enc.
Proof.
  intros cn block keys tag key x ct S B H. destruct (sizes_pos _ _ _ _ S) as (_ & St & _). apply sizes_cipher in S as (ci & E & <- & <- & <-). unfold toy_enc, toy_dec in *. rewrite E in *. cbv zeta.
  assert (Q : ct = map (fun c => 255 - c) x ++ repeat 9 (Z.to_nat (ci_auth ci))) by congruence. clear H.
  assert (L1 : zlen (map (fun c => 255 - c) x) = zlen x) by (unfold zlen; now rewrite map_length). assert (L2 : zlen (repeat 9 (Z.to_nat (ci_auth ci))) = ci_auth ci) by (unfold zlen; rewrite repeat_length; lia). splits.
  - rewrite Q. apply is_bytes_app. split; apply Forall_forall; intros y Hy; [|apply repeat_spec in Hy; subst; unfold is_byte; lia]. apply in_map_iff in Hy as (z & <- & Hz). unfold is_bytes in B. rewrite Forall_forall in B. apply B in Hz. unfold is_byte in *. lia.
  - rewrite Q, zlen_app. lia.
  - replace (zlen ct - ci_auth ci) with (zlen x) by (rewrite Q, zlen_app; lia). rewrite Q, zdrop_app, ztake_app by assumption. rewrite beqb_refl, map_map. f_equal. rewrite <- (map_id x) at 2. apply map_ext. intros. lia.
Qed.
Lemma ex_bytes : forall v n, 0 <= v < 256 -> is_bytes (repeat v n).
Proof. intros v n H. apply Forall_forall. intros x Hx. apply repeat_spec in Hx. subst. exact H. Qed.
Example C78_sound_ex : sound no_points no_ver ex_key /\ proper_secret any_scalar any_rsa (key_pub ex_key) ex_secret.
Proof. split; [split; [|exact I]; split; [reflexivity|apply ex_bytes; lia]|]. split; [reflexivity|]. apply is_bytes_app. split; apply ex_bytes; lia. Qed.
Definition ex_file (pass : list Z) (cipher : option (list Z)) : list Z := match private_to_blob2 toy_kdf toy_enc (repeat 3 16) 77 ex_key ex_secret pass (bs "me@home") cipher 0 with Some f => f | None => [] end.
Example C78_written_ex : private_to_blob2 toy_kdf toy_enc (repeat 3 16) 77 ex_key ex_secret [] (bs "me@home") None 0 = Some (ex_file [] None) /\
  private_to_blob2 toy_kdf toy_enc (repeat 3 16) 77 ex_key ex_secret (bs "pw") (bs "me@home") (Some (bs "aes256-gcm@openssh.com")) 0 = Some (ex_file (bs "pw") (Some (bs "aes256-gcm@openssh.com"))).
Proof. split; vm_compute; reflexivity. Qed.
Example C78_read_ex : parse_private2 no_points no_ver any_scalar any_rsa toy_kdf toy_dec (fun _ => 0) (ex_file (bs "pw") (Some (bs "aes256-gcm@openssh.com"))) (Some FEd) (bs "pw") = Good (ex_key, ex_secret, bs "me@home") /\
  parse_private2 no_points no_ver any_scalar any_rsa toy_kdf toy_dec (fun _ => 0) (ex_file (bs "pw") (Some (bs "aes256-gcm@openssh.com"))) None [] = Wrong.
Proof. split; vm_compute; reflexivity. Qed.

(** Finding: that the secret belongs to the public key is not checked.  A file is
    accepted whose Ed25519 secret ends in another public key. *)
Theorem C78_secret_refuted : exists file pk sk, zdrop 32 sk <> pk /\
  forall point_ok ver scalar_ok rsa_ok kdf dec junk, (forall cn key ct x, is_bytes ct -> dec cn key ct = DOk x -> is_bytes x) ->
    parse_private2 point_ok ver scalar_ok rsa_ok kdf dec junk file None [] = Good (mkKey (PEd pk) None, SEd sk, bs "me").
Proof.
  destruct (private_to_blob2 (fun _ _ _ _ => None) (fun _ _ _ => None) [] 77 (mkKey (PEd (repeat 7 32)) None) (SEd (repeat 5 64)) [] (bs "me") None 0) as [file|] eqn:E; [|vm_compute in E; discriminate].
  exists file, (repeat 7 32), (repeat 5 64). split; [vm_compute; discriminate|]. intros point_ok ver scalar_ok rsa_ok kdf dec junk DB.
  assert (O : private_to_blob2 kdf (fun _ _ _ => None) [] 77 (mkKey (PEd (repeat 7 32)) None) (SEd (repeat 5 64)) [] (bs "me") None 0 = Some file) by exact E.
  apply (C78_round_trip point_ok ver scalar_ok rsa_ok kdf dec DB (fun _ _ _ => None) [] 77 (mkKey (PEd (repeat 7 32)) None) (SEd (repeat 5 64)) [] (bs "me") None 0 file junk).
  - split; [|exact I]. split; [reflexivity|apply ex_bytes; lia].
  - split; [reflexivity|apply ex_bytes; lia].
  - constructor.
  - apply bs_bytes. reflexivity.
  - intros H. vm_compute in H. intuition discriminate.
  - lia.
  - intros ? ? ? ? ? ? ? ? ?. discriminate.
  - exact O.
Qed.
Print Assumptions C78_secret_refuted.

(** Finding: the name in front of a certificate need not be that of its curve; the
    comparison meant for this looks at the wrong type and never takes place. *)
Definition any_points (c : curve) (pt : list Z) : bool := true.
Definition any_ver (p : kpub) (s m : list Z) : bool := true.
Definition ex_body : tbs := mkT 1 1 (bs "id") [] 0 1 [] [].
Definition ex_cert : list Z := match certify (fun m _ => Some (enc_string (bs "toy"))) [] (PEc P384 [4; 1]) ex_body None (PEd (repeat 7 32)) None with Some (b, _) => b | None => [] end.
Theorem C78_group_refuted : exists x pt c s r, x = enc_string (bs "ecdsa-sha2-nistp256-cert-v01@openssh.com") ++ r /\
  private_deserialize any_points any_ver any_scalar any_rsa x = Some (mkKey (PEc P384 pt) (Some c), s, []).
Proof.
  exists (enc_string (bs "ecdsa-sha2-nistp256-cert-v01@openssh.com") ++ enc_string ex_cert ++ enc_string [1]), [4; 1], (mkKC ex_body (PEd (repeat 7 32)) (bs "toy") ex_cert), (SEc [1]), (enc_string ex_cert ++ enc_string [1]).
  split; [reflexivity|]. vm_compute. reflexivity.
Qed.
Print Assumptions C78_group_refuted.
