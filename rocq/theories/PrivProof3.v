(** Proofs for C78: reading a file, writing one. *)
From Coq Require Import String.
From Verif Require Import Base Text SshbufModel SshbufSpec SshbufProof WireSpec WireProof AddrModel MiscNumModel AuthOptModel Dec CertModel CertSpec CertProof AuthOptProof SigModel SigProof2 SigProof3 Base64Model Base64Spec Base64Proof Base64Props KeyModel KeySpec KeyProof KeyProof2 KeyProof3 PrivModel PrivSpec PrivProof PrivProof2.
Local Open Scope Z_scope.

Lemma ztake_app : forall (a b : list Z) n, zlen a = n -> ztake n (a ++ b) = a.
Proof. intros a b n <-. unfold ztake, zlen. rewrite Nat2Z.id. rewrite firstn_app, Nat.sub_diag, firstn_all. cbn [firstn]. apply app_nil_r. Qed.
Lemma zdrop_app : forall (a b : list Z) n, zlen a = n -> zdrop n (a ++ b) = b.
Proof. intros a b n <-. unfold zdrop, zlen. rewrite Nat2Z.id. rewrite skipn_app, Nat.sub_diag, skipn_all. reflexivity. Qed.
Lemma ztake_whole : forall (d : list Z) n, 0 <= n -> zlen (zdrop n d) = 0 -> ztake n d = d.
Proof. intros d n Hn H. unfold zdrop, ztake, zlen in *. rewrite skipn_length in H. apply firstn_all2. lia. Qed.
Lemma zlen_whole : forall (d : list Z) n, 0 <= n <= zlen d -> zlen (zdrop n d) = 0 -> zlen d = n.
Proof. intros d n Hn H. unfold zdrop, zlen in *. rewrite skipn_length in H. lia. Qed.
Lemma zdrop_none : forall (d : list Z), zdrop (zlen d) d = [].
Proof. intros d. unfold zdrop, zlen. rewrite Nat2Z.id. apply skipn_all. Qed.
Lemma ztake_all : forall (d : list Z), ztake (zlen d) d = d.
Proof. intros d. unfold ztake, zlen. rewrite Nat2Z.id. apply firstn_all. Qed.
Lemma mult_iff : forall n b, 0 < b -> ((n mod b =? 0) = true <-> exists q, n = q * b).
Proof.
  intros n b Hb. split.
  - intros H. exists (n / b). pose proof (Z.div_mod n b). lia.
  - intros (q & ->). rewrite Z_mod_mult. reflexivity.
Qed.
Lemma get4_iff : forall l v r, is_bytes l -> (get_int 4 l = Some (v, r) <-> l = be_enc 4 v ++ r /\ 0 <= v < 4294967296).
Proof. intros l v r B. rewrite (get_int_iff 4 l v r B). change (256 ^ Z.of_nat 4) with 4294967296. reflexivity. Qed.

(** The parts in front of the private section *)
Definition head (d cn kn kd pb : list Z) (n : Z) (ct : list Z) : Prop :=
  exists wc wk, d = wc ++ wk ++ enc_string kd ++ be_enc 4 1 ++ enc_string pb ++ be_enc 4 n ++ ct /\ ctext wc cn /\ ctext wk kn /\ zlen kd <= 134217724 /\ zlen pb <= 134217724 /\ 0 <= n < 4294967296.
Definition sized (cn : list Z) (n : Z) (ct : list Z) : Prop := exists block keys tag, sizes cn block keys tag /\ block <= n /\ (exists q, n = q * block) /\ zlen ct = n + tag.
Lemma head_bytes : forall d cn kn kd pb n ct, is_bytes d -> head d cn kn kd pb n ct -> is_bytes kd /\ is_bytes pb /\ is_bytes ct.
Proof.
  intros d cn kn kd pb n ct B (wc & wk & -> & _). apply bytes_app in B as (_ & B). apply bytes_app in B as (_ & B). apply bytes_app in B as (B1 & B). apply bytes_app in B as (_ & B). apply bytes_app in B as (B2 & B). apply bytes_app in B as (_ & B).
  unfold enc_string in B1, B2. apply bytes_app in B1 as (_ & B1). apply bytes_app in B2 as (_ & B2). auto.
Qed.

Lemma magic_bytes : is_bytes magic.
Proof. apply Forall_forall. intros c Hc. assert (G : forallb (fun c => (0 <=? c) && (c <? 256)) magic = true) by reflexivity. rewrite forallb_forall in G. apply G in Hc. unfold is_byte. lia. Qed.
Lemma envelope_head : forall d cn kn kd pb ct, envelope (magic ++ d) cn kn kd pb ct <-> exists n, head d cn kn kd pb n ct /\ sized cn n ct.
Proof.
  intros d cn kn kd pb ct. unfold envelope, head, sized. split.
  - intros (wc & wk & n & block & keys & tag & E & C1 & C2 & L1 & L2 & L3 & S & Lb & M & Zc). apply app_inv_head in E. exists n. split; [exists wc, wk; splits; auto; lia|]. exists block, keys, tag. auto.
  - intros (n & (wc & wk & -> & C1 & C2 & L1 & L2 & L3) & (block & keys & tag & S & Lb & M & Zc)). exists wc, wk, n, block, keys, tag. splits; auto; lia.
Qed.
Lemma envelope_magic : forall d cn kn kd pb ct, envelope d cn kn kd pb ct -> exists d', d = magic ++ d'.
Proof. intros d cn kn kd pb ct (wc & wk & n & block & keys & tag & -> & _). eauto. Qed.

Section Priv.
Variable point_ok : curve -> list Z -> bool.
Variable ver : kpub -> list Z -> list Z -> bool.
Variable scalar_ok : curve -> list Z -> bool.
Variable rsa_ok : list Z -> list Z -> list Z -> list Z -> list Z -> list Z -> bool.
Variable kdf : list Z -> list Z -> Z -> Z -> option (list Z).
Variable dec : list Z -> list Z -> list Z -> dres.

(** What the passphrase gives: a key, none, or nothing asked for *)
Definition key_for (cn kn kd pass : list Z) (keys : Z) : option (list Z) :=
  if beqb kn (bs "bcrypt") then
    match get_str kd with None => None | Some (salt, kd) => match get_int 4 kd with None => None | Some (rounds, _) => kdf pass salt rounds keys end end
  else Some (repeat 0 (Z.to_nat keys)).
Lemma key_for_iff : forall cn kd pass block keys tag x, is_bytes kd -> sizes cn block keys tag -> (key_for cn (bs "bcrypt") kd pass keys = Some x <-> derives kdf cn kd pass x).
Proof.
  intros cn kd pass block keys tag x B S. unfold key_for, derives. rewrite beqb_refl. split.
  - destruct (get_str kd) as [[salt kd1]|] eqn:E1; [|discriminate]. apply get_str_iff in E1 as (-> & L1); [|assumption]. apply bytes_app in B as (_ & B).
    destruct (get_int 4 kd1) as [[rounds kd2]|] eqn:E2; [|discriminate]. apply get4_iff in E2 as (-> & L2); [|assumption]. intros H. exists salt, rounds, kd2, block, keys, tag. auto.
  - intros (salt & rounds & rest & block' & keys' & tag' & S' & -> & L1 & L2 & H). destruct (sizes_fun _ _ _ _ _ _ _ S S') as (-> & -> & ->).
    rewrite (proj2 (get_str_iff _ salt (be_enc 4 rounds ++ rest) B)) by auto. apply bytes_app in B as (_ & B). rewrite (proj2 (get4_iff _ rounds rest B)) by auto. assumption.
Qed.

Definition rest_of2 (cn kn kd pb : list Z) (n : Z) (ct pass : list Z) : res (list Z * key) :=
  match from_blob point_ok ver pb with None => Bad | Some pubkey =>
  match cipher_by_name cn with None => Bad | Some ci =>
  if negb (beqb kn (bs "none")) && negb (beqb kn (bs "bcrypt")) then Bad else
  if beqb kn (bs "none") && negb (beqb cn (bs "none")) then Bad else
  if is_nil pass && negb (beqb kn (bs "none")) then Wrong else
  if (n <? ci_block ci) || negb (n mod ci_block ci =? 0) then Bad else
  match key_for cn kn kd pass (ci_key ci + ci_iv ci) with
  | None => Bad
  | Some k =>
      if (zlen ct <? ci_auth ci) || (zlen ct - ci_auth ci <? n) then Bad else
      match decrypt dec cn k (ztake (n + ci_auth ci) ct) with
      | DErr => Bad
      | DMac => Wrong
      | DOk x =>
          if negb (zlen (zdrop (n + ci_auth ci) ct) =? 0) then Bad else
          match get_int 4 x with None => Bad | Some (c1, x) =>
          match get_int 4 x with None => Bad | Some (c2, x) =>
          if negb (c1 =? c2) then Wrong else Good (x, pubkey)
          end end
      end
  end end end.
Lemma head_eval : forall d pass cn kn kd pb n ct k, is_bytes d -> head d cn kn kd pb n ct -> from_blob point_ok ver pb = Some k -> private2_decrypt point_ok ver kdf dec d pass = rest_of2 cn kn kd pb n ct pass.
Proof.
  intros d pass cn kn kd pb n ct k B (wc & wk & -> & C1 & C2 & L1 & L2 & L3) F. unfold private2_decrypt, rest_of2.
  rewrite (proj2 (get_cstr_iff _ cn (wk ++ enc_string kd ++ be_enc 4 1 ++ enc_string pb ++ be_enc 4 n ++ ct) B)) by (exists wc; auto). apply bytes_app in B as (_ & B).
  rewrite (proj2 (get_cstr_iff _ kn (enc_string kd ++ be_enc 4 1 ++ enc_string pb ++ be_enc 4 n ++ ct) B)) by (exists wk; auto). apply bytes_app in B as (_ & B).
  rewrite (proj2 (get_str_iff _ kd (be_enc 4 1 ++ enc_string pb ++ be_enc 4 n ++ ct) B)) by auto. apply bytes_app in B as (_ & B).
  rewrite (proj2 (get4_iff _ 1 (enc_string pb ++ be_enc 4 n ++ ct) B)) by (split; [reflexivity|lia]). apply bytes_app in B as (_ & B). change (negb (1 =? 1)) with false. cbv iota.
  rewrite (proj2 (get_str_iff _ pb (be_enc 4 n ++ ct) B)) by auto. apply bytes_app in B as (_ & B). rewrite F. rewrite (proj2 (get4_iff _ n ct B)) by auto. reflexivity.
Qed.
Lemma head_known : forall d pass, is_bytes d -> private2_decrypt point_ok ver kdf dec d pass <> Bad -> exists cn kn kd pb n ct k, head d cn kn kd pb n ct /\ from_blob point_ok ver pb = Some k.
Proof.
  intros d pass B. unfold private2_decrypt. destruct (get_cstr d) as [[cn d1]|] eqn:E1; [|congruence]. apply get_cstr_iff in E1 as (wc & C1 & ->); [|assumption]. apply bytes_app in B as (_ & B).
  destruct (get_cstr d1) as [[kn d2]|] eqn:E2; [|congruence]. apply get_cstr_iff in E2 as (wk & C2 & ->); [|assumption]. apply bytes_app in B as (_ & B).
  destruct (get_str d2) as [[kd d3]|] eqn:E3; [|congruence]. apply get_str_iff in E3 as (-> & L1); [|assumption]. apply bytes_app in B as (_ & B).
  destruct (get_int 4 d3) as [[nk d4]|] eqn:E4; [|congruence]. apply get4_iff in E4 as (-> & _); [|assumption]. apply bytes_app in B as (_ & B). destruct (nk =? 1) eqn:N1; [|cbn [negb]; congruence]. assert (nk = 1) as -> by lia.
  destruct (get_str d4) as [[pb d5]|] eqn:E5; [|cbn [negb]; congruence]. apply get_str_iff in E5 as (-> & L2); [|assumption]. apply bytes_app in B as (_ & B). destruct (from_blob point_ok ver pb) as [k|] eqn:F; [|cbn [negb]; congruence].
  destruct (get_int 4 d5) as [[n d6]|] eqn:E6; [|cbn [negb]; congruence]. apply get4_iff in E6 as (-> & L3); [|assumption].
  intros _. exists cn, kn, kd, pb, n, d6, k. split; [|assumption]. exists wc, wk. splits; auto; lia.
Qed.
Hypothesis dec_bytes : forall cn key ct x, is_bytes ct -> dec cn key ct = DOk x -> is_bytes x.
Definition checked (x0 x : list Z) : Prop := exists c, x0 = be_enc 4 c ++ be_enc 4 c ++ x /\ 0 <= c < 4294967296.
Lemma opens_bytes : forall cn kn kd pass ct x, is_bytes ct -> opens kdf dec cn kn kd pass ct x -> is_bytes x.
Proof.
  intros cn kn kd pass ct x B [(_ & _ & ->)|(_ & _ & key & _ & H)]; [assumption|]. destruct (beqb cn (bs "none")); [subst; assumption|]. now apply dec_bytes in H.
Qed.
Lemma rest_good : forall cn kn kd pb n ct pass k x, is_bytes kd -> is_bytes ct -> 0 <= n -> (rest_of2 cn kn kd pb n ct pass = Good (x, k) <->
  from_blob point_ok ver pb = Some k /\ sized cn n ct /\ exists x0, opens kdf dec cn kn kd pass ct x0 /\ checked x0 x).
Proof.
  intros cn kn kd pb n ct pass k x Bk Bc Hn. unfold rest_of2. split.
  - destruct (from_blob point_ok ver pb) as [k'|]; [|discriminate]. destruct (cipher_by_name cn) as [ci|] eqn:C; [|discriminate]. apply cipher_sizes in C. pose proof (sizes_pos _ _ _ _ C) as (Sb & St & _).
    destruct (negb (beqb kn (bs "none")) && negb (beqb kn (bs "bcrypt"))) eqn:K1; [discriminate|]. destruct (beqb kn (bs "none") && negb (beqb cn (bs "none"))) eqn:K2; [discriminate|]. destruct (is_nil pass && negb (beqb kn (bs "none"))) eqn:K3; [discriminate|].
    destruct ((n <? ci_block ci) || negb (n mod ci_block ci =? 0)) eqn:Nn; [discriminate|]. apply orb_false_iff in Nn as (N1 & N2). apply negb_false_iff in N2. apply mult_iff in N2; [|lia].
    destruct (key_for cn kn kd pass (ci_key ci + ci_iv ci)) as [key|] eqn:KF; [|discriminate]. destruct ((zlen ct <? ci_auth ci) || (zlen ct - ci_auth ci <? n)) eqn:Z1; [discriminate|].
    destruct (decrypt dec cn key (ztake (n + ci_auth ci) ct)) as [x0| |] eqn:D; try discriminate. destruct (zlen (zdrop (n + ci_auth ci) ct) =? 0) eqn:Z2; [|discriminate]. cbn [negb].
    assert (ZL : zlen ct = n + ci_auth ci) by (apply zlen_whole; lia). rewrite <- ZL, ztake_all in D.
    assert (O : opens kdf dec cn kn kd pass ct x0).
    { unfold decrypt in D. destruct (beqb kn (bs "none")) eqn:KN.
      - left. cbn [andb] in K2. apply negb_false_iff in K2. rewrite K2 in D. apply beqb_eq in KN, K2. assert (x0 = ct) by congruence. auto.
      - right. cbn [negb andb] in K1. apply negb_false_iff in K1. apply beqb_eq in K1. subst kn. split; [reflexivity|]. split; [intros ->; discriminate K3|].
        exists key. split; [now apply (proj1 (key_for_iff cn kd pass _ _ _ key Bk C))|]. destruct (beqb cn (bs "none")); congruence. }
    pose proof (opens_bytes _ _ _ _ _ _ Bc O) as B0. destruct (get_int 4 x0) as [[c1 x1]|] eqn:G1; [|discriminate]. apply get4_iff in G1 as (E1 & L1); [|assumption]. assert (B1 : is_bytes x1) by (rewrite E1 in B0; now apply bytes_app in B0).
    destruct (get_int 4 x1) as [[c2 x2]|] eqn:G2; [|discriminate]. apply get4_iff in G2 as (E2 & L2); [|assumption]. destruct (c1 =? c2) eqn:CC; [|discriminate]. assert (c1 = c2) by lia. subst c2. cbn [negb].
    intros H. assert (k' = k /\ x2 = x) as (-> & ->) by (split; congruence). split; [reflexivity|]. split; [exists (ci_block ci), (ci_key ci + ci_iv ci), (ci_auth ci); splits; auto; lia|]. exists x0. split; [assumption|]. exists c1. split; [congruence|lia].
  - intros (F & (block & keys & tag & S & Lb & M & ZL) & x0 & O & (c & E & Lc)). rewrite F. pose proof (sizes_pos _ _ _ _ S) as (Sb & St & _). pose proof S as S'. apply sizes_cipher in S' as (ci & -> & <- & <- & <-).
    assert (B0 : is_bytes x0) by (eapply opens_bytes; eauto). subst x0.
    assert (A : exists key, key_for cn kn kd pass (ci_key ci + ci_iv ci) = Some key /\ decrypt dec cn key ct = DOk (be_enc 4 c ++ be_enc 4 c ++ x) /\ (negb (beqb kn (bs "none")) && negb (beqb kn (bs "bcrypt"))) = false /\
      (beqb kn (bs "none") && negb (beqb cn (bs "none"))) = false /\ (is_nil pass && negb (beqb kn (bs "none"))) = false).
    { destruct O as [(-> & -> & E)|(-> & P & key & D & E)].
      - exists (repeat 0 (Z.to_nat (ci_key ci + ci_iv ci))). splits; auto; [unfold decrypt; rewrite beqb_refl; now rewrite E|]. rewrite beqb_refl. apply andb_false_r.
      - exists key. splits; auto; [now apply (proj2 (key_for_iff cn kd pass _ _ _ key Bk S))| |].
        + unfold decrypt. destruct (beqb cn (bs "none")); [now rewrite E|assumption].
        + destruct pass; [congruence|reflexivity]. }
    destruct A as (key & -> & D & -> & -> & ->). replace (n <? ci_block ci) with false by lia. rewrite (proj2 (mult_iff n (ci_block ci) ltac:(lia)) M). cbn [negb orb].
    replace (zlen ct <? ci_auth ci) with false by lia. replace (zlen ct - ci_auth ci <? n) with false by lia. cbn [orb]. rewrite <- ZL, ztake_all, zdrop_none, D. change (negb (zlen (@nil Z) =? 0)) with false. cbv iota.
    rewrite (proj2 (get4_iff _ c (be_enc 4 c ++ x) B0)) by auto. apply bytes_app in B0 as (_ & B0). rewrite (proj2 (get4_iff _ c x B0)) by auto. rewrite Z.eqb_refl. reflexivity.
Qed.
Lemma parse_iff : forall junk file want pass k s comment, zlen file <= 134217728 ->
  (parse_private2 point_ok ver scalar_ok rsa_ok kdf dec junk file want pass = Good (k, s, comment) <->
   holds point_ok ver scalar_ok rsa_ok kdf dec file pass k s comment /\ forall f, want = Some f -> f = family_of (key_pub k)).
Proof.
  intros junk file want pass k s comment L. unfold parse_private2, holds. split.
  - destruct (uudecode junk file) as [d|] eqn:U; [|discriminate]. apply uudecode_iff in U; [|assumption]. assert (B : is_bytes (magic ++ d)) by (destruct U as (? & ? & _ & _ & B & _); exact B). apply bytes_app in B as (_ & B).
    destruct (private2_decrypt point_ok ver kdf dec d pass) as [[x pk]| |] eqn:D; try discriminate. destruct (head_known d pass B) as (cn & kn & kd & pb & n & ct & k0 & Hh & F); [rewrite D; discriminate|].
    rewrite (head_eval d pass _ _ _ _ _ _ _ B Hh F) in D. destruct (head_bytes _ _ _ _ _ _ _ B Hh) as (Bk & Bp & Bc). apply rest_good in D as (F' & Sz & x0 & O & (c & E0 & Lc)); [|assumption|assumption|destruct Hh as (? & ? & _ & _ & _ & _ & _ & Q); lia].
    destruct (match want with Some f => negb (family_eqb f (family_of (key_pub pk))) | None => false end) eqn:W; [discriminate|].
    assert (Bx : is_bytes x). { assert (Q : is_bytes x0) by (eapply opens_bytes; eauto). rewrite E0 in Q. apply bytes_app in Q as (_ & Q). now apply bytes_app in Q. }
    destruct (private_deserialize point_ok ver scalar_ok rsa_ok x) as [[[k' s'] x1]|] eqn:P; [|discriminate]. apply private_iff in P as (w & E1 & P); [|assumption]. pose proof Bx as Bw. rewrite E1 in Bw. apply bytes_app in Bw as (Bw & B1).
    destruct (get_cstr x1) as [[cm x2]|] eqn:G; [|discriminate]. apply get_cstr_iff in G as (wc & Cc & E2); [|assumption]. destruct (pad_ok 0 x2) eqn:PO; [|discriminate]. apply padding_iff in PO. cbn [negb].
    destruct (key_equal pk k') eqn:KE; [|discriminate]. apply (key_equal_iff _ _ _ _ _ _ _ _ _ Bp F' Bw P) in KE. cbn [negb]. intros H. assert (k' = k /\ s' = s /\ cm = comment) as (-> & -> & ->) by (splits; congruence). subst pk. split.
    + exists (magic ++ d), cn, kn, kd, pb, ct, x0. splits; auto; [apply envelope_head; eauto|]. exists c, w, wc, x2. splits; auto; try lia. rewrite E0, E1, E2. reflexivity.
    + intros f ->. destruct (family_eqb f (family_of (key_pub k))) eqn:FE; [|discriminate]. now destruct f, (family_of (key_pub k)).
  - intros ((d & cn & kn & kd & pb & ct & x & T & En & O & F & (c & w & wc & pad & E & Lc & P & Cc & Pd)) & W). destruct (envelope_magic _ _ _ _ _ _ En) as (d' & ->). rewrite (proj2 (uudecode_iff junk file d' L) T).
    assert (B : is_bytes (magic ++ d')) by (destruct T as (? & ? & _ & _ & B & _); exact B). apply bytes_app in B as (_ & B). apply envelope_head in En as (n & Hh & Sz). destruct (head_bytes _ _ _ _ _ _ _ B Hh) as (Bk & Bp & Bc).
    rewrite (head_eval d' pass _ _ _ _ _ _ _ B Hh F). assert (Ln : 0 <= n) by (destruct Hh as (? & ? & _ & _ & _ & _ & _ & Q); lia).
    assert (R : rest_of2 cn kn kd pb n ct pass = Good (w ++ wc ++ pad, k)). { apply rest_good; auto. splits; auto. exists x. split; [assumption|]. exists c. split; assumption. }
    rewrite R. assert (Bx : is_bytes (w ++ wc ++ pad)). { assert (Q : is_bytes x) by (eapply opens_bytes; eauto). rewrite E in Q. apply bytes_app in Q as (_ & Q). now apply bytes_app in Q. }
    replace (match want with Some f => negb (family_eqb f (family_of (key_pub k))) | None => false end) with false; [|destruct want as [f|]; [|reflexivity]; rewrite (W f eq_refl); now destruct (family_of (key_pub k))].
    rewrite (proj2 (private_iff _ _ _ _ _ k s (wc ++ pad) Bx)) by (exists w; auto). pose proof Bx as Bw. apply bytes_app in Bw as (Bw & B1). rewrite (proj2 (get_cstr_iff _ comment pad B1)) by (exists wc; auto).
    rewrite (proj2 (padding_iff pad) Pd). cbn [negb]. rewrite (proj2 (key_equal_iff _ _ _ _ pb k k s w Bp F Bw P) eq_refl). reflexivity.
Qed.
End Priv.
