(** Proofs for C81: what is signed, and by whom. *)
From Coq Require Import String.
From Verif Require Import Base Text SshbufModel SshbufSpec SshbufProof WireSpec WireProof MiscNumModel AuthOptModel Dec CertSpec CertProof ServProof MatchModel SigProof2 SigProof3 KeyModel KeySpec KeyProof KeyProof2 KeyProof3 SocksSpec SocksProof HostbModel HostbSpec HostbProof.
Local Open Scope Z_scope.

Lemma kind_iff : forall alg k, type_from_name alg = Some (key_type k) <-> names_kind alg k.
Proof.
  intros alg [p c]. unfold names_kind, key_type. cbn [key_pub key_cert]. split.
  - intros H. apply type_name_pub in H as (i & I & -> & T).
    assert (Q : exists q, family_of q = fst (i_type i) /\ In (i_name i) (if snd (i_type i) then cert_names q else plain_names q)).
    { clear - I. unfold keyimpls in I. cbn [In] in I.
      repeat match type of I with _ \/ _ => destruct I as [<-|I] end; try contradiction; cbn [i_name i_type i_nid fst snd].
      all: first
        [ exists (PEd []); split; [reflexivity|cbn [plain_names cert_names In]; tauto]
        | exists (PEdSk [] []); split; [reflexivity|cbn [plain_names cert_names In]; tauto]
        | exists (PEc P256 []); split; [reflexivity|cbn [plain_names cert_names In]; tauto]
        | exists (PEc P384 []); split; [reflexivity|cbn [plain_names cert_names In]; tauto]
        | exists (PEc P521 []); split; [reflexivity|cbn [plain_names cert_names In]; tauto]
        | exists (PEcSk P256 [] []); split; [reflexivity|cbn [plain_names cert_names In]; tauto]
        | exists (PRsa [] []); split; [reflexivity|cbn [plain_names cert_names In]; tauto] ]. }
    rewrite T in Q. cbn [fst snd] in Q. destruct Q as (q & F & J). exists q. split; [assumption|]. now destruct c.
  - intros (q & F & J). rewrite <- F. apply (proj2 (names_iff alg q _)). now destruct c.
Qed.
Lemma host_named_iff : forall host p, host_named host p = true <-> exists n, p = n ++ [46] /\ same_name n host.
Proof.
  intros host p. unfold host_named, same_name. destruct p as [|c q _] using rev_ind.
  - change (zlen [] - 1) with (-1). pose proof (zlen_nonneg _ host). replace (zlen host =? -1) with false by lia. cbn [negb].
    split; [discriminate|]. intros (n & E & _). destruct n; discriminate.
  - assert (L : zlen (q ++ [c]) - 1 = zlen q) by (rewrite zlen_app; change (zlen [c]) with 1; lia). rewrite !L.
    assert (N : nth (Z.to_nat (zlen q)) (q ++ [c]) 0 = c) by (unfold zlen; rewrite Nat2Z.id, app_nth2, Nat.sub_diag by lia; reflexivity). rewrite N, ztake_app_exact by reflexivity.
    split.
    + destruct (zlen host =? zlen q) eqn:E1; [|discriminate]. destruct (c =? 46) eqn:E2; [|discriminate]. cbn [negb]. intros H. apply strcaseeq_iff in H. exists q. split; [repeat f_equal; lia|congruence].
    + intros (n & E & S). apply app_inj_tail in E as (-> & ->). assert (zlen host = zlen n) by (unfold zlen; f_equal; apply (f_equal (@List.length Z)) in S; rewrite !map_length in S; congruence).
      replace (zlen host =? zlen n) with true by lia. cbn [negb Z.eqb Pos.eqb]. apply strcaseeq_iff. congruence.
Qed.
Lemma strip_iff : forall h n, undotted h n <-> strip_dot h = n.
Proof.
  intros h n. unfold undotted, strip_dot. destruct h as [|c q _] using rev_ind.
  - cbn [zlen length Z.of_nat Z.ltb Z.compare andb]. split; [intros [E|[E _]]; [destruct n; discriminate|assumption]|]. intros <-. right. split; [reflexivity|]. intros m E. destruct m; discriminate.
  - assert (L : zlen (q ++ [c]) = zlen q + 1) by (rewrite zlen_app; reflexivity). pose proof (zlen_nonneg _ q).
    replace (zlen (q ++ [c]) - 1) with (zlen q) by lia. replace (0 <? zlen (q ++ [c])) with true by lia.
    assert (N : nth (Z.to_nat (zlen q)) (q ++ [c]) 0 = c) by (unfold zlen; rewrite Nat2Z.id, app_nth2, Nat.sub_diag by lia; reflexivity). rewrite N, ztake_app_exact by reflexivity. cbn [andb].
    destruct (c =? 46) eqn:E; split.
    + intros [Q|[Q K]]; [apply app_inj_tail in Q as (-> & _); reflexivity|]. exfalso. apply (K q). repeat f_equal. lia.
    + intros <-. left. repeat f_equal. lia.
    + intros [Q|[Q K]]; [apply app_inj_tail in Q as (_ & ->); discriminate|assumption].
    + intros <-. right. split; [reflexivity|]. intros m Q. apply app_inj_tail in Q as (_ & ->). discriminate.
Qed.

(** ** The data *)
Lemma built_iff : forall sid user service method alg blob chost cuser data,
  put_str cuser (put_str chost (put_str blob (put_str alg (put_str method (put_str service (put_str user (AuthOptModel.put [50] (put_str sid (Some []))))))))) = Some data <->
  data = enc_string sid ++ [50] ++ enc_string user ++ enc_string service ++ enc_string method ++ enc_string alg ++ enc_string blob ++ enc_string chost ++ enc_string cuser /\ zlen data <= 134217728.
Proof.
  intros. split.
  - intros H. repeat (apply put_str_fits_m in H as (? & H & -> & ?)). apply put_m in H as (? & H & -> & ?). apply put_str_fits in H as (-> & ?). rewrite <- !app_assoc in *. cbn [app] in *. auto.
  - intros (-> & L). rewrite !zlen_app in L.
    assert (A : forall x : list Z, 0 <= zlen (enc_string x)) by (intros; apply zlen_nonneg). pose proof (zlen_nonneg _ ([50] : list Z)).
    pose proof (A sid). pose proof (A user). pose proof (A service). pose proof (A method). pose proof (A alg). pose proof (A blob). pose proof (A chost). pose proof (A cuser).
    repeat (apply put_str_fits_m; eexists; splits; [|rewrite ?app_assoc; reflexivity|rewrite !zlen_app; lia]).
    apply put_m. eexists. splits; [|reflexivity|rewrite !zlen_app; lia]. apply put_str_fits. split; [reflexivity|lia].
Qed.
Lemma get_raw_iff : forall b v r, is_bytes b -> (dec_cstring b = ROk (v, r) <-> b = enc_string v ++ r /\ zlen v <= 134217724 /\ ctext (enc_string v) (SshbufModel.cstr v)).
Proof.
  intros b v r Hb. unfold dec_cstring. split.
  - intros H. destruct (dec_string b) as [[v' r']|] eqn:E; [|discriminate]. destruct (nul_ok v') eqn:N; [|discriminate]. injection H as -> ->.
    assert (G : get_str b = Some (v, r)) by (unfold get_str; now rewrite E). apply get_str_spec in G as (-> & L & _ & _); [|assumption]. splits; auto.
    apply nul_ok_spec in N. destruct N as [N|(s & N & ->)].
    + rewrite Dec.cstr_id by assumption. split; auto.
    + assert (C : SshbufModel.cstr (s ++ [0]) = s). { clear - N. induction s as [|x s IH]; [reflexivity|]. cbn. destruct (x =? 0) eqn:E; [exfalso; apply N; left; lia|]. f_equal. apply IH. intros K. apply N. now right. }
      rewrite C. split; [assumption|]. right. split; [reflexivity|]. rewrite zlen_app in L. change (zlen [0]) with 1 in L. lia.
  - intros (-> & L & N & C). rewrite dec_string_ok by (change (SSHBUF_SIZE_MAX - 4) with 134217724; assumption).
    replace (nul_ok v) with true; [reflexivity|]. symmetry. apply nul_ok_spec.
    destruct C as [[E M]|[E M]].
    + assert (Q : enc_string v ++ [] = enc_string (SshbufModel.cstr v) ++ []) by now rewrite <- E. apply enc_split in Q as (Q & _); [|assumption..]. left. now rewrite Q.
    + assert (Q : enc_string v ++ [] = enc_string (SshbufModel.cstr v ++ [0]) ++ []) by now rewrite <- E. apply enc_split in Q as (Q & _); [|assumption|rewrite zlen_app; change (zlen [0]) with 1; lia]. right. eauto.
Qed.

Lemma raw_shape : forall v t, ctext (enc_string v) t -> zlen v <= 134217724 -> v = t \/ v = t ++ [0].
Proof.
  intros v t (N & [[E M]|[E M]]) L; [left|right].
  - assert (Q : enc_string v ++ [] = enc_string t ++ []) by now rewrite <- E. now apply enc_split in Q as (Q & _).
  - assert (Q : enc_string v ++ [] = enc_string (t ++ [0]) ++ []) by now rewrite <- E. apply enc_split in Q as (Q & _); auto. rewrite zlen_app. change (zlen [0]) with 1. lia.
Qed.

Section K.
Variable point_ok : curve -> list Z -> bool.
Variable ver : kpub -> list Z -> list Z -> bool.
Lemma named_iff : forall alg blob k, is_bytes blob -> zlen blob <= 134217724 ->
  (named_key point_ok ver alg blob = Some k <-> names_kind alg k /\ blob_of point_ok ver blob k).
Proof.
  intros alg blob k Hb L. unfold named_key, blob_of. rewrite <- kind_iff. split.
  - intros H. destruct (type_from_name alg) as [t|] eqn:T; [|discriminate]. destruct (from_blob point_ok ver blob) as [k'|] eqn:B; [|discriminate].
    destruct (ktype_eqb (key_type k') t) eqn:E; [|discriminate]. injection H as ->. apply ktype_eqb_iff in E. subst t. split; [reflexivity|]. now apply from_blob_iff in B.
  - intros (T & B). rewrite T. assert (F : from_blob point_ok ver blob = Some k) by (apply from_blob_iff; auto; split; [lia|assumption]).
    rewrite F. now rewrite (proj2 (ktype_eqb_iff _ _) eq_refl).
Qed.
Definition sid_len (sid : list Z) : Prop := zlen sid = 20 \/ zlen sid = 32 \/ zlen sid = 48 \/ zlen sid = 64.
Lemma valid_iff : forall user host data k alg, is_bytes data ->
  (valid_request point_ok ver user host data = VOk k alg <->
   exists sid ruser blob n, says_request data sid ruser (bs "ssh-connection") alg blob (n ++ [46]) user /\ sid_len sid /\ same_name n host /\
     names_kind alg k /\ blob_of point_ok ver blob k).
Proof.
  intros user host data k alg Hb. unfold valid_request. change SSHBUF_SIZE_MAX with 134217728. split.
  - intros H. destruct (134217728 <? zlen data) eqn:L; [discriminate|].
    destruct (get_str data) as [[sid b1]|] eqn:G1; [|discriminate]. apply get_str_spec in G1 as (D1 & L1 & _ & B1); [|assumption].
    destruct (get_int 1 b1) as [[ty b2]|] eqn:G2; [|discriminate]. apply get_int_spec in G2 as (D2 & T & B2); [|assumption].
    destruct (get_str b2) as [[ruser b3]|] eqn:G3; [|discriminate]. apply get_str_spec in G3 as (D3 & L3 & _ & B3); [|assumption].
    destruct (get_cstr b3) as [[service b4]|] eqn:G4; [|discriminate]. apply get_cstr_iff in G4 as (ws & C4 & D4); [|assumption]. assert (B4 : is_bytes b4) by (apply (ctext_bytes ws service); congruence).
    destruct (get_cstr b4) as [[method b5]|] eqn:G5; [|discriminate]. apply get_cstr_iff in G5 as (wm & C5 & D5); [|assumption]. assert (B5 : is_bytes b5) by (apply (ctext_bytes wm method); congruence).
    destruct (get_cstr b5) as [[alg' b6]|] eqn:G6; [|discriminate]. apply get_cstr_iff in G6 as (wa & C6 & D6); [|assumption]. assert (B6 : is_bytes b6) by (apply (ctext_bytes wa alg'); congruence).
    destruct (get_str b6) as [[blob b7]|] eqn:G7; [|discriminate]. apply get_str_spec in G7 as (D7 & L7 & Bb & B7); [|assumption].
    destruct (dec_cstring b7) as [[chost b8]|] eqn:G8; [|discriminate]. apply get_raw_iff in G8 as (D8 & L8 & C8); [|assumption]. assert (B8 : is_bytes b8) by (rewrite D8 in B7; now apply is_bytes_app in B7).
    destruct (get_cstr b8) as [[luser b9]|] eqn:G9; [|discriminate]. apply get_cstr_iff in G9 as (wl & C9 & D9); [|assumption].
    cbv zeta in H.
    destruct ((zlen sid =? 20) || (zlen sid =? 32) || (zlen sid =? 48) || (zlen sid =? 64)) eqn:S; [|discriminate]. cbn [negb] in H.
    destruct (ty =? 50) eqn:Ty; [|discriminate]. cbn [negb] in H.
    destruct (beqb service (bs "ssh-connection")) eqn:Se; [|discriminate]. cbn [negb] in H. apply beqb_eq in Se.
    destruct (beqb method (bs "hostbased")) eqn:Me; [|discriminate]. cbn [negb] in H. apply beqb_eq in Me.
    destruct (host_named host chost) eqn:Ho; [|discriminate]. cbn [negb] in H. apply host_named_iff in Ho as (n & En & Sn).
    destruct (beqb user luser) eqn:Us; [|discriminate]. cbn [negb] in H. apply beqb_eq in Us.
    destruct (zlen b9 =? 0) eqn:Z9; [|discriminate]. cbn [negb] in H. apply Z.eqb_eq, zlen_zero_nil in Z9. subst b9. rewrite app_nil_r in D9.
    destruct (named_key point_ok ver alg' blob) as [k'|] eqn:K; [|discriminate]. injection H as -> ->. apply named_iff in K as (K1 & K2); [|assumption..].
    exists sid, ruser, blob, n. subst service method chost luser.
    assert (ty = 50) as -> by lia. change (be_enc 1 50) with [50] in D2.
    assert (NC : ~ In 0 (n ++ [46])).
    { destruct (raw_shape _ _ C8 L8) as [Q|Q]; [rewrite Q; apply C8|apply app_inj_tail in Q as (_ & Q); discriminate]. }
    splits; auto.
    + exists ws, wm, wa, wl. splits; auto; [congruence|lia].
    + unfold sid_len. lia.
  - intros (sid & ruser & blob & n & (ws & wm & wa & wl & -> & C4 & C5 & C6 & C9 & N8 & L1 & L3 & L7 & L8 & L) & S & Sn & K1 & K2).
    match goal with |- context [zlen ?d] => replace (134217728 <? zlen d) with false by lia end.
    rewrite get_str_enc by assumption. change [50] with (be_enc 1 50). rewrite get_int_enc by (cbn; lia). rewrite get_str_enc by assumption.
    apply is_bytes_app in Hb as (_ & Hb). apply is_bytes_app in Hb as (_ & Hb). apply is_bytes_app in Hb as (_ & Hb).
    rewrite (proj2 (get_cstr_iff _ (bs "ssh-connection") _ Hb) (ex_intro _ ws (conj C4 eq_refl))). apply is_bytes_app in Hb as (_ & Hb).
    rewrite (proj2 (get_cstr_iff _ (bs "hostbased") _ Hb) (ex_intro _ wm (conj C5 eq_refl))). apply is_bytes_app in Hb as (_ & Hb).
    rewrite (proj2 (get_cstr_iff _ alg _ Hb) (ex_intro _ wa (conj C6 eq_refl))). apply is_bytes_app in Hb as (_ & Hb).
    rewrite get_str_enc by assumption. assert (Bb : is_bytes blob) by (apply is_bytes_app in Hb as (Hb & _); unfold enc_string in Hb; now apply is_bytes_app in Hb).
    apply is_bytes_app in Hb as (_ & Hb).
    rewrite (proj2 (get_raw_iff _ (n ++ [46]) wl Hb)) by (splits; auto; rewrite Dec.cstr_id by assumption; split; auto). apply is_bytes_app in Hb as (_ & Hb).
    rewrite (proj2 (get_cstr_iff wl user [] Hb)) by (exists wl; split; [assumption|now rewrite app_nil_r]). cbv zeta.
    replace ((zlen sid =? 20) || (zlen sid =? 32) || (zlen sid =? 48) || (zlen sid =? 64)) with true by (unfold sid_len in S; lia). cbn [negb Z.eqb Pos.eqb].
    rewrite !(proj2 (beqb_eq _ _) eq_refl). cbn [negb]. rewrite (proj2 (host_named_iff host (n ++ [46]))) by eauto. cbn [negb].
    rewrite ?(proj2 (beqb_eq user user) eq_refl). cbn [negb]. change (zlen [] =? 0) with true. cbn [negb].
    now rewrite (proj2 (named_iff alg blob k Bb L7) (conj K1 K2)).
Qed.
Lemma curve_eqb_iff : forall a b, curve_eqb a b = true <-> a = b.
Proof. intros [] []; cbn; split; congruence. Qed.
Lemma pub_eqb_iff : forall a b, pub_eqb a b = true <-> a = b.
Proof.
  intros [] []; cbn [pub_eqb]; rewrite ?andb_true_iff, ?beqb_eq, ?curve_eqb_iff; (split; [try discriminate; intuition congruence|intros E; try discriminate; injection E; auto]).
Qed.
Lemma find_iff : forall k h keys, find_hostkey k keys = Some h <-> hostkey_for k h keys.
Proof.
  intros k h keys. unfold find_hostkey, hostkey_for. induction keys as [|o keys IH]; cbn [find].
  - split; [discriminate|]. intros ([|? ?] & r & E & _); discriminate.
  - destruct o as [g|].
    + destruct (pub_eqb (key_pub k) (key_pub g)) eqn:E.
      * apply pub_eqb_iff in E. split.
        -- intros Q. injection Q as ->. exists [], keys. splits; [reflexivity|congruence|intros ? []].
        -- intros (l & r & Q & P & N). destruct l as [|x l]; injection Q as Q; [congruence|]. subst x. exfalso. apply (N g); [now left|congruence].
      * assert (NE : key_pub g <> key_pub k) by (intros Q; symmetry in Q; apply pub_eqb_iff in Q; congruence).
        rewrite IH. split; intros (l & r & Q & P & N).
        -- exists (Some g :: l), r. splits; auto; [now rewrite Q|]. intros h' [I|I]; [injection I as <-; assumption|now apply N].
        -- destruct l as [|x l]; injection Q as Q R; [congruence|]. exists l, r. splits; auto. intros h' I. apply N. now right.
    + rewrite IH. split; intros (l & r & Q & P & N).
      * exists (None :: l), r. splits; auto; [now rewrite Q|]. intros h' [I|I]; [discriminate|now apply N].
      * destruct l as [|x l]; injection Q as Q R; [congruence|]. exists l, r. splits; auto. intros h' I. apply N. now right.
Qed.
Lemma keysign_iff : forall enabled user keys name_of_fd msg h data alg, is_bytes msg ->
  (keysign point_ok ver enabled user keys name_of_fd msg = Some (h, data, alg) <->
   enabled = true /\ exists fd host rest sid ruser blob n k,
     msg = [2] ++ be_enc 4 fd ++ enc_string data ++ rest /\ 2 < fd < 2147483648 /\ name_of_fd fd = Some host /\ zlen data <= 134217724 /\
     says_request data sid ruser (bs "ssh-connection") alg blob (n ++ [46]) user /\ sid_len sid /\ same_name n host /\
     names_kind alg k /\ blob_of point_ok ver blob k /\ hostkey_for k h keys).
Proof.
  intros enabled user keys nf msg h data alg Hb. unfold keysign. split.
  - intros H. destruct enabled; [|discriminate]. cbn [negb] in H. split; [reflexivity|].
    destruct (get_int 1 msg) as [[v b1]|] eqn:G1; [|discriminate]. apply get_int_spec in G1 as (D1 & T1 & B1); [|assumption].
    destruct (v =? 2) eqn:E; [|discriminate]. cbn [negb] in H. assert (v = 2) as -> by lia. change (be_enc 1 2) with [2] in D1.
    destruct (get_int 4 b1) as [[fd b2]|] eqn:G2; [|discriminate]. apply get_int_spec in G2 as (D2 & T2 & B2); [|assumption].
    change (256 ^ Z.of_nat 4) with 4294967296 in T2.
    destruct (int_of fd <=? 2) eqn:F; [discriminate|]. assert (int_of fd = fd /\ 2 < fd < 2147483648) as (I & R) by (unfold int_of in *; destruct (fd <? 2147483648) eqn:?; lia). rewrite I in H.
    destruct (nf fd) as [host|] eqn:N; [|discriminate].
    destruct (get_str b2) as [[d b3]|] eqn:G3; [|discriminate]. apply get_str_spec in G3 as (D3 & L3 & Bd & B3); [|assumption].
    destruct (valid_request point_ok ver user host d) as [| |k a] eqn:V; [discriminate|discriminate|].
    destruct (find_hostkey k keys) as [g|] eqn:K; [|discriminate]. injection H as -> -> ->. apply find_iff in K. apply valid_iff in V as (sid & ruser & blob & n & V1 & V2 & V3 & V4 & V5); [|assumption].
    exists fd, host, b3, sid, ruser, blob, n, k. splits; auto; try lia. congruence.
  - intros (-> & fd & host & rest & sid & ruser & blob & n & k & -> & R & N & L & V1 & V2 & V3 & V4 & V5 & K). cbn [negb].
    change [2] with (be_enc 1 2). rewrite get_int_enc by (cbn; lia). cbn [Z.eqb Pos.eqb negb]. rewrite get_int_enc by (change (256 ^ Z.of_nat 4) with 4294967296; lia).
    assert (I : int_of fd = fd) by (unfold int_of; destruct (fd <? 2147483648) eqn:?; lia). rewrite I. replace (fd <=? 2) with false by lia. rewrite N, get_str_enc by assumption.
    assert (Bd : is_bytes data) by (apply is_bytes_app in Hb as (_ & Hb); apply is_bytes_app in Hb as (_ & Hb); apply is_bytes_app in Hb as (Hb & _); unfold enc_string in Hb; now apply is_bytes_app in Hb).
    rewrite (proj2 (valid_iff user host data k alg Bd)) by (exists sid, ruser, blob, n; splits; auto). now rewrite (proj2 (find_iff k h keys) K).
Qed.
(** What is signed has one reading *)
Lemma says_unique : forall data sid ruser service alg blob chost luser sid' ruser' service' alg' blob' chost' luser', is_bytes data ->
  says_request data sid ruser service alg blob chost luser -> says_request data sid' ruser' service' alg' blob' chost' luser' ->
  sid = sid' /\ ruser = ruser' /\ service = service' /\ alg = alg' /\ blob = blob' /\ chost = chost' /\ luser = luser'.
Proof.
  intros data sid ruser service alg blob chost luser sid' ruser' service' alg' blob' chost' luser' Hb
    (ws & wm & wa & wl & E & C1 & C2 & C3 & C4 & N & L1 & L2 & L3 & L4 & _) (ws' & wm' & wa' & wl' & E' & C1' & C2' & C3' & C4' & N' & L1' & L2' & L3' & L4' & _).
  rewrite E in Hb, E'. clear E. apply enc_split in E' as (-> & E); [|assumption..]. cbn [app] in E. apply (f_equal (@tl Z)) in E. cbn [tl] in E. apply enc_split in E as (-> & E); [|assumption..].
  apply is_bytes_app in Hb as (_ & Hb). apply is_bytes_app in Hb as (_ & Hb). apply is_bytes_app in Hb as (_ & Hb).
  apply (ctext_split _ _ _ _ _ _ Hb C1 C1') in E as (-> & E). apply is_bytes_app in Hb as (_ & Hb).
  apply (ctext_split _ _ _ _ _ _ Hb C2 C2') in E as (_ & E). apply is_bytes_app in Hb as (_ & Hb).
  apply (ctext_split _ _ _ _ _ _ Hb C3 C3') in E as (-> & E). apply is_bytes_app in Hb as (_ & Hb).
  apply enc_split in E as (-> & E); [|assumption..]. apply is_bytes_app in Hb as (_ & Hb).
  apply enc_split in E as (-> & E); [|assumption..]. apply is_bytes_app in Hb as (_ & Hb).
  assert (Q : wl ++ [] = wl' ++ []) by now rewrite !app_nil_r. rewrite <- (app_nil_r wl) in Hb. apply (ctext_split _ _ _ _ _ _ Hb C4 C4') in Q as (-> & _). splits; auto.
Qed.
End K.
