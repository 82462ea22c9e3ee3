From Verif Require Import Base SshbufModel SshbufSpec SshbufProof WireSpec WireProof Dec MiscNumModel SocksModel SocksSpec SocksProof.
Local Open Scope Z_scope.

Lemma cut5 : forall n q, 0 <= n -> n + 2 <= zlen q -> is_bytes q -> q = ztake n q ++ be_enc 2 (port_of (zdrop n q)) ++ zdrop (n + 2) q /\ 0 <= port_of (zdrop n q) < 65536.
Proof.
  intros n q H L B. pose proof (zlen_zdrop _ n q ltac:(lia)) as Ld. assert (Bd : is_bytes (zdrop n q)) by now apply is_bytes_zdrop. assert (Lt : zlen (ztake 2 (zdrop n q)) = 2) by (apply zlen_ztake; lia).
  assert (Bt : is_bytes (ztake 2 (zdrop n q))) by now apply is_bytes_ztake. split.
  - unfold port_of. replace 2%nat with (length (ztake 2 (zdrop n q))) by (unfold zlen in Lt; lia). rewrite be_enc_dec by assumption. replace (n + 2) with (2 + n) by lia. rewrite <- zdrop_zdrop by lia. now rewrite !ztake_zdrop.
  - unfold port_of. pose proof (be_dec_bound _ Bt) as Q. rewrite Lt in Q. exact Q.
Qed.
Lemma port_app : forall n q m, 0 <= n -> n + 2 <= zlen q -> port_of (zdrop n (q ++ m)) = port_of (zdrop n q).
Proof. intros n q m H L. unfold port_of. rewrite zdrop_app_l by lia. rewrite ztake_app_l; [reflexivity|]. rewrite zlen_zdrop; lia. Qed.
Lemma port_at : forall (a : list Z) n p r, zlen a = n -> 0 <= p < 65536 -> port_of (zdrop n (a ++ be_enc 2 p ++ r)) = p.
Proof. intros a n p r L R. unfold port_of. rewrite zdrop_app_exact by auto. rewrite ztake_app_exact by now rewrite zlen_be_enc. apply be_dec_enc_id. exact R. Qed.
Lemma rest_at : forall (a : list Z) n p r, zlen a = n -> zdrop (n + 2) (a ++ be_enc 2 p ++ r) = r.
Proof. intros a n p r L. rewrite app_assoc. apply zdrop_app_exact. rewrite zlen_app, zlen_be_enc. cbn. lia. Qed.

Section S.
Variable ntop6 : list Z -> list Z.
Notation decode5_request' := (decode5_request ntop6).
Notation decode5' := (decode5 ntop6).
Notation decode' := (decode ntop6).
Definition extend (s : said) (m : list Z) (full : said) : said :=
  match s with Bad => Bad | More => full | Agreed r => Agreed (r ++ m) | Ask h p r o => Ask h p (r ++ m) o end.

Lemma fixed5_mono : forall n t q m, 0 <= n -> fixed5 n t (q ++ m) = extend (fixed5 n t q) m (fixed5 n t (q ++ m)).
Proof.
  intros n t q m H. unfold fixed5 at 2. destruct (zlen q <? n + 2) eqn:L; [reflexivity|]. cbn [extend]. unfold fixed5. rewrite zlen_app. pose proof (zlen_nonneg _ m).
  replace (zlen q + zlen m <? n + 2) with false by lia. rewrite ztake_app_l, port_app, zdrop_app_l by lia. reflexivity.
Qed.
Lemma request5_mono : forall i m, is_bytes i -> decode5_request' (i ++ m) = extend (decode5_request' i) m (decode5_request' (i ++ m)).
Proof.
  intros i m Hb. destruct i as [|v [|cmd [|rsv [|at' [|n r]]]]]; try reflexivity. cbn [app decode5_request].
  destruct (negb (v =? 5) || negb (cmd =? 1) || negb (rsv =? 0)); [reflexivity|]. destruct (at' =? 1); [apply (fixed5_mono 4 dotted_of (n :: r) m); lia|].
  destruct (at' =? 3); [|destruct (at' =? 4); [apply (fixed5_mono 16 ntop6 (n :: r) m); lia|reflexivity]].
  assert (0 <= n). { inversion_clear Hb as [|? ? _ B1]. inversion_clear B1 as [|? ? _ B2]. inversion_clear B2 as [|? ? _ B3]. inversion_clear B3 as [|? ? _ B4]. inversion_clear B4 as [|? ? X _]. unfold is_byte in X. lia. }
  pose proof (zlen_nonneg _ m). destruct (zlen r <? n + 2) eqn:L; [reflexivity|]. rewrite zlen_app. replace (zlen r + zlen m <? n + 2) with false by lia. destruct (NI_MAXHOST <=? n); [reflexivity|].
  cbn [extend]. rewrite ztake_app_l, port_app, zdrop_app_l by lia. reflexivity.
Qed.
Lemma decode5_mono : forall a i m, is_bytes i -> decode5' a (i ++ m) = extend (decode5' a i) m (decode5' a (i ++ m)).
Proof.
  intros a i m Hb. destruct i as [|v i]; [reflexivity|]. cbn [app decode5]. destruct (v =? 5) eqn:V; [|reflexivity]. cbn [negb]. destruct a; [exact (request5_mono (v :: i) m Hb)|].
  destruct i as [|n r]; [reflexivity|]. cbn [app]. destruct (zlen r <? n) eqn:L; [reflexivity|]. pose proof (zlen_nonneg _ m). rewrite zlen_app. replace (zlen r + zlen m <? n) with false by lia.
  assert (0 <= n). { inversion_clear Hb as [|? ? _ B1]. inversion_clear B1 as [|? ? X _]. unfold is_byte in X. lia. }
  rewrite ztake_app_l, zdrop_app_l by lia. destruct (existsb _ _); reflexivity.
Qed.
Lemma decode_mono : forall a i m, is_bytes i -> decode' a (i ++ m) = extend (decode' a i) m (decode' a (i ++ m)).
Proof.
  intros a i m Hb. unfold decode at 2. destruct (zlen i <? 3) eqn:L; [reflexivity|]. unfold decode. rewrite zlen_app. pose proof (zlen_nonneg _ m). replace (zlen i + zlen m <? 3) with false by lia. cbv zeta.
  rewrite app_nth1 by (unfold zlen in L; lia). destruct (nth 0 i 0 =? 4); [exact (decode4_mono i m)|]. destruct (nth 0 i 0 =? 5); [now apply decode5_mono|reflexivity].
Qed.

(** ** Soundness and completeness of one decoding *)
Lemma nth4 : forall q : list Z, zlen q = 4 -> exists a b c d, q = [a; b; c; d].
Proof. intros q L. apply four. unfold zlen in L. lia. Qed.
Lemma request5_sound : forall i h p r o, is_bytes i -> decode5_request' i = Ask h p r o -> exists q, i = q ++ r /\ request5 ntop6 q h p /\ o = reply5.
Proof.
  intros i h p r o Hb H. destruct i as [|v [|cmd [|rsv [|at' [|n l]]]]]; try discriminate. cbn [decode5_request] in H.
  destruct (negb (v =? 5) || negb (cmd =? 1) || negb (rsv =? 0)) eqn:C; [discriminate|]. assert (v = 5) by lia. assert (cmd = 1) by lia. assert (rsv = 0) by lia. subst v cmd rsv.
  assert (B4 : is_bytes (n :: l)). { change (5 :: 1 :: 0 :: at' :: n :: l) with ([5; 1; 0; at'] ++ n :: l) in Hb. apply is_bytes_app in Hb. tauto. }
  destruct (at' =? 1) eqn:A1; [|destruct (at' =? 3) eqn:A3; [|destruct (at' =? 4) eqn:A4; [|discriminate]]].
  - assert (at' = 1) by lia. subst at'. unfold fixed5 in H. destruct (zlen (n :: l) <? 4 + 2) eqn:L; [discriminate|]. injection H as <- <- <- <-. set (q := n :: l) in *. destruct (cut5 4 q) as (E & R); [lia|lia|assumption|]. change (4 + 2) with 6 in E.
    exists ([5; 1; 0; 1] ++ ztake 4 q ++ be_enc 2 (port_of (zdrop 4 q))). split; [cbn [app]; rewrite <- app_assoc; now rewrite <- E|]. split; [|reflexivity]. assert (Lt : zlen (ztake 4 q) = 4) by (apply zlen_ztake; lia). apply r5_addr; [unfold zlen in Lt; lia|assumption|].
    assert (Bt : is_bytes (ztake 4 q)) by now apply is_bytes_ztake. destruct (nth4 _ Lt) as (a & b & c & d & Q). rewrite Q in *. unfold dotted_of. cbn [nth]. now apply dotted_text.
  - assert (at' = 3) by lia. subst at'. destruct (zlen l <? n + 2) eqn:L; [discriminate|]. destruct (NI_MAXHOST <=? n); [discriminate|]. injection H as <- <- <- <-. inversion_clear B4 as [|? ? Bn Bl]. unfold is_byte in Bn. destruct (cut5 n l) as (E & R); [lia|lia|assumption|].
    assert (Lt : zlen (ztake n l) = n) by (apply zlen_ztake; lia). exists ([5; 1; 0; 3; zlen (ztake n l)] ++ ztake n l ++ be_enc 2 (port_of (zdrop n l))). split; [rewrite Lt at 1; cbn [app]; rewrite <- app_assoc; now rewrite <- E|]. split; [|reflexivity].
    apply r5_name; [lia|assumption|]. now apply cstr_up.
  - assert (at' = 4) by lia. subst at'. unfold fixed5 in H. destruct (zlen (n :: l) <? 16 + 2) eqn:L; [discriminate|]. injection H as <- <- <- <-. set (q := n :: l) in *. destruct (cut5 16 q) as (E & R); [lia|lia|assumption|]. change (16 + 2) with 18 in E.
    exists ([5; 1; 0; 4] ++ ztake 16 q ++ be_enc 2 (port_of (zdrop 16 q))). split; [cbn [app]; rewrite <- app_assoc; now rewrite <- E|]. split; [|reflexivity]. assert (Lt : zlen (ztake 16 q) = 16) by (apply zlen_ztake; lia). apply r5_addr6; [unfold zlen in Lt; lia|assumption].
Qed.
Lemma fixed5_at : forall n t a p r, zlen a = n -> 0 <= p < 65536 -> fixed5 n t (a ++ be_enc 2 p ++ r) = Ask (t a) p r reply5.
Proof.
  intros n t a p r L R. unfold fixed5. rewrite !zlen_app, zlen_be_enc. pose proof (zlen_nonneg _ r). change (Z.of_nat 2) with 2. replace (zlen a + (2 + zlen r) <? n + 2) with false by lia.
  rewrite ztake_app_exact by auto. rewrite port_at by auto. now rewrite rest_at by auto.
Qed.
Lemma request5_complete : forall q h p r, is_bytes q -> request5 ntop6 q h p -> decode5_request' (q ++ r) = Ask h p r reply5 /\ nth 0 (q ++ r) 0 = 5 /\ 3 <= zlen (q ++ r).
Proof.
  intros q h p r Hb Q. revert Hb. destruct Q as [port addr host L R T|port name host L R T|port addr L R]; intros Hb.
  - destruct (four addr L) as (a & b & c & d & ->). split; [|split; [reflexivity|cbn [app]; rewrite !zlen_cons; pose proof (zlen_nonneg _ (be_enc 2 port ++ r)); lia]]. rewrite <- !app_assoc. cbn [app decode5_request]. replace (5 =? 5) with true by lia. replace (1 =? 1) with true by lia. replace (0 =? 0) with true by lia. cbn [negb orb].
    change (fixed5 4 dotted_of ([a; b; c; d] ++ be_enc 2 port ++ r) = Ask host port r reply5). rewrite (fixed5_at 4 dotted_of [a; b; c; d]) by auto. unfold dotted_of. cbn [nth]. f_equal. symmetry. apply dotted_only; [|assumption]. apply is_bytes_app in Hb as (_ & Hb). apply is_bytes_app in Hb. tauto.
  - split; [|split; [reflexivity|cbn [app]; rewrite !zlen_cons; pose proof (zlen_nonneg _ ((name ++ be_enc 2 port) ++ r)); lia]]. rewrite <- !app_assoc. cbn [app decode5_request]. replace (5 =? 5) with true by lia. replace (1 =? 1) with true by lia. replace (0 =? 0) with true by lia. cbn [negb orb]. replace (3 =? 1) with false by lia. replace (3 =? 3) with true by lia.
    rewrite !zlen_app, zlen_be_enc. pose proof (zlen_nonneg _ r). change (Z.of_nat 2) with 2. replace (zlen name + (2 + zlen r) <? zlen name + 2) with false by lia. unfold NI_MAXHOST. replace (1025 <=? zlen name) with false by lia.
    rewrite ztake_app_exact by auto. rewrite port_at by auto. rewrite rest_at by auto. apply cstr_up in T. now rewrite T.
  - destruct addr as [|x addr]; [discriminate|]. split; [|split; [reflexivity|cbn [app]; rewrite !zlen_cons; pose proof (zlen_nonneg _ ((addr ++ be_enc 2 port) ++ r)); lia]]. rewrite <- !app_assoc. cbn [app decode5_request]. replace (5 =? 5) with true by lia. replace (1 =? 1) with true by lia. replace (0 =? 0) with true by lia. cbn [negb orb]. replace (4 =? 1) with false by lia. replace (4 =? 3) with false by lia. replace (4 =? 4) with true by lia.
    exact (fixed5_at 16 ntop6 (x :: addr) port r ltac:(unfold zlen; lia) R).
Qed.
Lemma greeting_sound : forall i r, is_bytes i -> nth 0 i 0 = 5 -> decode5' false i = Agreed r -> exists g, i = g ++ r /\ greeting5 g.
Proof.
  intros i r Hb V H. destruct i as [|v [|n l]]; [discriminate| |]; cbn [nth] in V; subst v; cbn [decode5] in H; replace (5 =? 5) with true in H by lia; cbn [negb] in H; [discriminate|].
  destruct (zlen l <? n) eqn:L; [discriminate|]. destruct (existsb (fun c => c =? 0) (ztake n l)) eqn:X; [|discriminate]. injection H as <-. inversion_clear Hb as [|? ? _ B]. inversion_clear B as [|? ? Bn _]. unfold is_byte in Bn.
  assert (Lt : zlen (ztake n l) = n) by (apply zlen_ztake; lia). exists (5 :: zlen (ztake n l) :: ztake n l). split; [rewrite Lt at 1; cbn [app]; now rewrite ztake_zdrop|]. exists (ztake n l). splits; [reflexivity|lia|]. apply existsb_exists in X as (z & I & Q). assert (z = 0) by lia. now subst z.
Qed.
Lemma greeting_complete : forall g r, greeting5 g -> decode5' false (g ++ r) = Agreed r /\ nth 0 (g ++ r) 0 = 5 /\ 3 <= zlen (g ++ r).
Proof.
  intros g r (me & -> & L & I). split; [|split; [reflexivity|]].
  - cbn [app decode5]. replace (5 =? 5) with true by lia. cbn [negb]. rewrite zlen_app. pose proof (zlen_nonneg _ r). replace (zlen me + zlen r <? zlen me) with false by lia. rewrite ztake_app_exact, zdrop_app_exact by auto.
    replace (existsb (fun c => c =? 0) me) with true; [reflexivity|]. symmetry. apply existsb_exists. exists 0. split; [assumption|reflexivity].
  - destruct me as [|x me]; [destruct I|]. cbn [app]. rewrite !zlen_cons. pose proof (zlen_nonneg _ (me ++ r)). lia.
Qed.
Lemma decode5_not : forall i h p r o, decode5' false i = Ask h p r o -> False.
Proof. intros [|v [|n l]] h p r o H; [discriminate| |]; cbn [decode5] in H; destruct (v =? 5); try discriminate. cbn [negb] in H. destruct (zlen l <? n); [discriminate|]. destruct (existsb _ _); discriminate. Qed.
Lemma decode5_not' : forall i r, decode5' true i = Agreed r -> False.
Proof.
  intros [|v i] r H; [discriminate|]. cbn [decode5] in H. destruct (v =? 5); [|discriminate]. cbn [negb] in H. destruct i as [|cmd [|rsv [|at' [|n l]]]]; try discriminate. cbn [decode5_request] in H. destruct (_ || _); [discriminate|].
  unfold fixed5 in H. destruct (at' =? 1); [destruct (_ <? _); discriminate|]. destruct (at' =? 3); [destruct (_ <? _); [discriminate|]; destruct (_ <=? _); discriminate|]. destruct (at' =? 4); [destruct (_ <? _); discriminate|discriminate].
Qed.
Lemma decode4_not : forall i r, decode4 i = Agreed r -> False.
Proof. intros i r H. destruct (decode4_cases i) as [(E & _)|[(E & _)|(cmd & p1 & p2 & h & r' & S)]]; try congruence. rewrite (shape4_eq _ _ _ _ _ _ S) in H. unfold finish4 in H. destruct (negb _); discriminate. Qed.
(** What a decoding accepts *)
Lemma decode_ask : forall a i h p r o, is_bytes i -> decode' a i = Ask h p r o ->
  exists q, i = q ++ r /\ (request4 q h p /\ o = reply4 \/ a = true /\ request5 ntop6 q h p /\ o = reply5).
Proof.
  intros a i h p r o Hb H. unfold decode in H. destruct (zlen i <? 3); [discriminate|]. cbv zeta in H. destruct (nth 0 i 0 =? 4) eqn:V4.
  - apply decode4_sound in H as (q & E & R & O); [|assumption|lia]. exists q. auto.
  - destruct (nth 0 i 0 =? 5) eqn:V5; [|discriminate]. destruct a; [|now apply decode5_not in H]. destruct i as [|v i]; [discriminate|]. cbn [nth] in V5. assert (v = 5) by lia. subst v. cbn [decode5] in H. replace (5 =? 5) with true in H by lia. cbn [negb] in H.
    apply request5_sound in H as (q & E & R & O); [|assumption]. exists q. split; [exact E|]. right. auto.
Qed.
Lemma decode_agreed : forall a i r, is_bytes i -> decode' a i = Agreed r -> a = false /\ exists g, i = g ++ r /\ greeting5 g.
Proof.
  intros a i r Hb H. unfold decode in H. destruct (zlen i <? 3); [discriminate|]. cbv zeta in H. destruct (nth 0 i 0 =? 4) eqn:V4; [now apply decode4_not in H|]. destruct (nth 0 i 0 =? 5) eqn:V5; [|discriminate].
  destruct a; [now apply decode5_not' in H|]. split; [reflexivity|]. apply greeting_sound in H; [assumption|assumption|lia].
Qed.
Lemma decode_req4 : forall a q h p r, is_bytes q -> request4 q h p -> decode' a (q ++ r) = Ask h p r reply4.
Proof. intros a q h p r Hb Q. destruct (decode4_complete q h p r Hb Q) as (D & V & L). unfold decode. replace (zlen (q ++ r) <? 3) with false by lia. cbv zeta. rewrite V. replace (4 =? 4) with true by lia. exact D. Qed.
Lemma decode_req5 : forall q h p r, is_bytes q -> request5 ntop6 q h p -> decode' true (q ++ r) = Ask h p r reply5.
Proof.
  intros q h p r Hb Q. destruct (request5_complete q h p r Hb Q) as (D & V & L). unfold decode. replace (zlen (q ++ r) <? 3) with false by lia. cbv zeta. rewrite V. replace (5 =? 4) with false by lia. replace (5 =? 5) with true by lia.
  destruct (q ++ r) as [|v i]; [discriminate|]. cbn [nth] in V. subst v. cbn [decode5]. replace (5 =? 5) with true by lia. exact D.
Qed.
Lemma decode_greet : forall g r, greeting5 g -> decode' false (g ++ r) = Agreed r.
Proof. intros g r G. destruct (greeting_complete g r G) as (D & V & L). unfold decode. replace (zlen (g ++ r) <? 3) with false by lia. cbv zeta. rewrite V. replace (5 =? 4) with false by lia. replace (5 =? 5) with true by lia. exact D. Qed.
Lemma decode_more : forall a i, is_bytes i -> decode' a i = More -> zlen i <= 1025.
Proof.
  intros a i Hb H. unfold decode in H. destruct (zlen i <? 3) eqn:L; [lia|]. clear L. cbv zeta in H. destruct (nth 0 i 0 =? 4).
  - destruct (decode4_cases i) as [(_ & B)|[(E & _)|(cmd & p1 & p2 & h & r' & S)]]; [assumption|congruence|]. rewrite (shape4_eq _ _ _ _ _ _ S) in H. unfold finish4 in H. destruct (negb _); discriminate.
  - destruct (nth 0 i 0 =? 5); [|discriminate]. destruct i as [|v i]; [unfold zlen; cbn; lia|]. cbn [decode5] in H. destruct (v =? 5); [|discriminate]. cbn [negb] in H. inversion_clear Hb as [|? ? Bv Hi].
    destruct a.
    + destruct i as [|cmd [|rsv [|at' [|n l]]]]; try (unfold zlen; cbn; lia). cbn [decode5_request] in H. destruct (_ || _); [discriminate|].
      assert (Bn : is_byte n). { inversion_clear Hi as [|? ? _ B1]. inversion_clear B1 as [|? ? _ B2]. inversion_clear B2 as [|? ? _ B3]. inversion_clear B3 as [|? ? X _]. exact X. } unfold is_byte in Bn.
      rewrite !zlen_cons. unfold fixed5 in H. rewrite zlen_cons in H. destruct (at' =? 1); [destruct (_ <? _) eqn:Q; [lia|discriminate]|]. destruct (at' =? 3); [destruct (_ <? _) eqn:Q; [lia|]; destruct (_ <=? _); discriminate|]. destruct (at' =? 4); [destruct (_ <? _) eqn:Q; [lia|discriminate]|discriminate].
    + destruct i as [|n l]; [unfold zlen; cbn; lia|]. destruct (zlen l <? n) eqn:Q; [|destruct (existsb _ _); discriminate]. inversion_clear Hi as [|? ? Bn _]. unfold is_byte in Bn. rewrite !zlen_cons. lia.
Qed.

(** ** The channel *)
Notation pre := (pre_dynamic ntop6).
Definition settle (s : chan) : chan := pre (pre s).
Definition good (s : chan) : Prop := is_bytes (c_in s).
Lemma pre_good : forall s, good s -> good (pre s).
Proof.
  intros s G. unfold pre_dynamic. destruct (c_phase s); auto. destruct (decode' (c_auth s) (c_in s)) eqn:D; auto; unfold good; cbn [c_in]; [constructor| |].
  - apply decode_agreed in D as (_ & g & E & _); [|assumption]. unfold good in G. rewrite E in G. apply is_bytes_app in G. tauto.
  - apply decode_ask in D as (q & E & _); [|assumption]. unfold good in G. rewrite E in G. apply is_bytes_app in G. tauto.
Qed.
Lemma receive_good : forall s b, good s -> is_bytes b -> good (receive b s).
Proof. intros s b G B. unfold receive, good. destruct (c_phase s); cbn [c_in]; auto; apply is_bytes_app; auto. Qed.
Lemma pre_fix : forall s, good s -> c_auth s = true -> pre (pre s) = pre s.
Proof.
  intros s G A. unfold pre_dynamic at 2 3. destruct (c_phase s) eqn:P; [|unfold pre_dynamic; rewrite P; reflexivity|unfold pre_dynamic; rewrite P; reflexivity].
  destruct (decode' (c_auth s) (c_in s)) eqn:D; try reflexivity.
  - unfold pre_dynamic. rewrite P, D. reflexivity.
  - apply decode_agreed in D as (Q & _); [congruence|assumption].
Qed.
Lemma settled : forall s, good s -> pre (settle s) = settle s.
Proof.
  intros s G. unfold settle. destruct (c_auth (pre s)) eqn:A; [apply pre_fix; [now apply pre_good|assumption]|].
  unfold pre_dynamic in A. destruct (c_phase s) eqn:P; try (unfold pre_dynamic; rewrite P, P, P; reflexivity).
  assert (pre s = s \/ forall t, t = pre s -> c_phase t <> Waiting) as [E|E].
  { unfold pre_dynamic. rewrite P. destruct (decode' (c_auth s) (c_in s)) eqn:D; auto; try (right; intros t ->; cbn; discriminate). }
  - rewrite E, E, E. reflexivity.
  - specialize (E _ eq_refl). assert (X : forall t, c_phase t <> Waiting -> pre t = t) by (intros t N; unfold pre_dynamic; destruct (c_phase t); congruence). rewrite (X _ E), (X _ E). reflexivity.
Qed.
Lemma settle_pre : forall s, good s -> settle (pre s) = settle s.
Proof. intros s G. exact (settled s G). Qed.
Lemma settle_end : forall s, c_phase s <> Waiting -> settle s = s.
Proof. intros s N. assert (X : forall t, c_phase t <> Waiting -> pre t = t) by (intros t M; unfold pre_dynamic; destruct (c_phase t); congruence). unfold settle. now rewrite !X by (rewrite ?X; auto). Qed.
Lemma receive_pre : forall s b, good s -> is_bytes b -> settle (receive b (pre s)) = settle (receive b s).
Proof.
  intros s b G B. destruct (c_phase s) eqn:P; [|unfold pre_dynamic; rewrite P; reflexivity|unfold pre_dynamic; rewrite P; reflexivity].
  pose proof (decode_mono (c_auth s) (c_in s) b G) as M. destruct (decode' (c_auth s) (c_in s)) eqn:D; cbn [extend] in M.
  - assert (E1 : pre s = mkC Dead (c_auth s) [] (c_out s)) by (unfold pre_dynamic; rewrite P, D; reflexivity). assert (E2 : pre (receive b s) = mkC Dead (c_auth s) [] (c_out s)) by (unfold receive; rewrite P; unfold pre_dynamic; cbn [c_phase c_auth c_in c_out]; rewrite M; reflexivity).
    rewrite E1. unfold settle. rewrite E2. reflexivity.
  - assert (E1 : pre s = s) by (unfold pre_dynamic; rewrite P, D; reflexivity). now rewrite E1.
  - assert (E1 : pre s = mkC Waiting true rest (c_out s ++ [5; 0])) by (unfold pre_dynamic; rewrite P, D; reflexivity). assert (E2 : pre (receive b s) = receive b (pre s)) by (rewrite E1; unfold receive; rewrite P; unfold pre_dynamic; cbn [c_phase c_auth c_in c_out]; rewrite M; reflexivity).
    rewrite <- E2. apply settle_pre. now apply receive_good.
  - assert (E1 : pre s = mkC (Opening host port) (c_auth s) rest (c_out s ++ reply)) by (unfold pre_dynamic; rewrite P, D; reflexivity). assert (E2 : pre (receive b s) = mkC (Opening host port) (c_auth s) (rest ++ b) (c_out s ++ reply)) by (unfold receive; rewrite P; unfold pre_dynamic; cbn [c_phase c_auth c_in c_out]; rewrite M; reflexivity).
    rewrite E1. unfold settle. rewrite E2. reflexivity.
Qed.

(** All the bytes that have arrived *)
Fixpoint stream (evs : list event) : list Z := match evs with [] => [] | Bytes b :: r => b ++ stream r | Handler :: r => stream r end.
Lemma stream_app : forall a b, stream (a ++ b) = stream a ++ stream b.
Proof. induction a as [|[c|] a IH]; intros b; cbn [stream app]; [reflexivity| |]; rewrite IH; [now rewrite app_assoc|reflexivity]. Qed.
Definition whole (bs : list Z) : chan := settle (mkC Waiting false bs []).
Lemma any_schedule : forall evs, is_bytes (stream evs) -> settle (play ntop6 evs) = whole (stream evs) /\ good (play ntop6 evs).
Proof.
  induction evs as [|e evs IH] using rev_ind; intros B; [split; [reflexivity|constructor]|]. rewrite stream_app in *. apply is_bytes_app in B as (B & B'). destruct (IH B) as (E & G). unfold play in *. rewrite fold_left_app. cbn [fold_left]. set (s := fold_left _ evs _) in *.
  destruct e as [b|]; cbn [stream step] in *; rewrite app_nil_r in *.
  - split; [|now apply receive_good]. rewrite <- receive_pre by assumption. rewrite <- receive_pre by (auto using pre_good). fold (settle s). rewrite E. unfold whole. assert (Gt : good (mkC Waiting false (stream evs) [])) by exact B. change (settle (mkC Waiting false (stream evs) [])) with (pre (pre (mkC Waiting false (stream evs) []))).
    rewrite (receive_pre (pre (mkC Waiting false (stream evs) []))) by (auto using pre_good). rewrite receive_pre by assumption. reflexivity.
  - split; [|now apply pre_good]. rewrite settle_pre by assumption. exact E.
Qed.
Lemma pre_ask : forall a i h p r o out, decode' a i = Ask h p r o -> settle (mkC Waiting a i out) = mkC (Opening h p) a r (out ++ o).
Proof. intros a i h p r o out D. unfold settle. assert (E : pre (mkC Waiting a i out) = mkC (Opening h p) a r (out ++ o)) by (unfold pre_dynamic; cbn [c_phase c_auth c_in c_out]; now rewrite D). now rewrite E. Qed.
Lemma pre_agreed : forall i r, decode' false i = Agreed r -> whole i = pre (mkC Waiting true r [5; 0]).
Proof. intros i r D. unfold whole, settle. assert (E : pre (mkC Waiting false i []) = mkC Waiting true r [5; 0]) by (unfold pre_dynamic; cbn [c_phase c_auth c_in c_out]; now rewrite D). now rewrite E. Qed.
Lemma whole_asks : forall q o h p r, is_bytes q -> asks ntop6 q o h p -> exists a, whole (q ++ r) = mkC (Opening h p) a r o.
Proof.
  intros q o h p r B A. revert B. destruct A as [q' h' p' R|g q' h' p' G R|g q' h' p' G R]; intros B.
  - exists false. unfold whole. now rewrite (pre_ask _ _ _ _ _ _ _ (decode_req4 false _ _ _ r B R)).
  - apply is_bytes_app in B as (_ & B). exists true. rewrite <- app_assoc. rewrite (pre_agreed _ _ (decode_greet g (q' ++ r) G)). unfold pre_dynamic. cbn [c_phase c_auth c_in c_out]. now rewrite (decode_req5 _ _ _ r B R).
  - apply is_bytes_app in B as (_ & B). exists true. rewrite <- app_assoc. rewrite (pre_agreed _ _ (decode_greet g (q' ++ r) G)). unfold pre_dynamic. cbn [c_phase c_auth c_in c_out]. now rewrite (decode_req4 true _ _ _ r B R).
Qed.
Lemma whole_opens : forall bs h p a r o, is_bytes bs -> whole bs = mkC (Opening h p) a r o -> exists q, bs = q ++ r /\ asks ntop6 q o h p.
Proof.
  intros bs h p a r o B H. unfold whole, settle in H. destruct (decode' false bs) eqn:D.
  - assert (E : pre (mkC Waiting false bs []) = mkC Dead false [] []) by (unfold pre_dynamic; cbn [c_phase c_auth c_in c_out]; now rewrite D). rewrite E in H. discriminate.
  - assert (E : pre (mkC Waiting false bs []) = mkC Waiting false bs []) by (unfold pre_dynamic; cbn [c_phase c_auth c_in c_out]; now rewrite D). rewrite E, E in H. discriminate.
  - assert (E : pre (mkC Waiting false bs []) = mkC Waiting true rest [5; 0]) by (unfold pre_dynamic; cbn [c_phase c_auth c_in c_out]; now rewrite D). rewrite E in H. apply decode_agreed in D as (_ & g & -> & G); [|assumption]. apply is_bytes_app in B as (_ & B).
    unfold pre_dynamic in H. cbn [c_phase c_auth c_in c_out] in H. destruct (decode' true rest) eqn:D2; try discriminate. injection H as -> -> <- -> <-. apply decode_ask in D2 as (q & -> & Q); [|assumption]. exists (g ++ q). split; [now rewrite app_assoc|].
    destruct Q as [(R & ->)|(_ & R & ->)]; [now apply asks5_4|now apply asks5].
  - pose proof (pre_ask _ _ _ _ _ _ [] D) as X. unfold settle in X. rewrite X in H. clear X. injection H as -> -> <- -> <-. apply decode_ask in D as (q & -> & [(R & ->)|(X & _)]); [|discriminate|assumption]. exists q. split; [reflexivity|]. now apply asks4.
Qed.
Lemma whole_waits : forall s, good s -> c_phase (settle s) = Waiting -> zlen (c_in (settle s)) <= 1025.
Proof.
  intros s G W. pose proof (settled s G) as F. assert (G2 : good (settle s)) by (unfold settle; auto using pre_good). destruct (decode' (c_auth (settle s)) (c_in (settle s))) eqn:D.
  - unfold pre_dynamic in F. rewrite W, D in F. rewrite <- F in W. discriminate.
  - now apply decode_more in D.
  - unfold pre_dynamic in F. rewrite W, D in F. apply decode_agreed in D as (A & _); [|assumption]. rewrite <- F in A. discriminate.
  - unfold pre_dynamic in F. rewrite W, D in F. rewrite <- F in W. discriminate.
Qed.

(** ** The other direction *)
Section R.
Variable perm : Type.
Variable open_match : perm -> list Z -> Z -> bool.
Variable admin : list perm.
Variable connects : list Z -> Z -> bool.
Notation ok h p := (permitted perm open_match admin h p && connects h p).
Notation rplay' := (rplay ntop6 perm open_match admin connects).
Notation rstep' := (rstep ntop6 perm open_match admin connects).
(** The same bytes and handler calls *)
Fixpoint seen (evs : list revent) : list event :=
  match evs with [] => [] | RBytes b :: r => Bytes b :: seen r | RHandler :: r => Handler :: seen r | _ :: r => seen r end.
Lemma seen_app : forall a b, seen (a ++ b) = seen a ++ seen b.
Proof. induction a as [|e a IH]; intros b; [reflexivity|]. destruct e; cbn [seen app]; rewrite ?IH; reflexivity. Qed.
Definition like (s : rchan) (c : chan) : Prop :=
  match r_phase s with
  | RWaiting => c = mkC Waiting (r_auth s) (r_out s) (r_sent s ++ r_in s)
  | RConnecting h p => c = mkC (Opening h p) (r_auth s) (r_out s) (r_sent s ++ r_in s) /\ ok h p = true
  | RClosed => r_eof s = true \/ c_phase c = Dead \/ exists h p, c_phase c = Opening h p /\ ok h p = false
  end.
Lemma flush_like : forall s c, like s c -> like (flush s) c.
Proof. intros s c H. unfold flush. cbv zeta. destruct (_ && _); [|assumption]. unfold like in *. cbn [r_phase r_auth r_out r_sent r_in r_eof]. now rewrite app_nil_r. Qed.
Lemma decode_short : forall a i, zlen i < 3 -> decode' a i = More.
Proof. intros a i H. unfold decode. now replace (zlen i <? 3) with true by lia. Qed.
Lemma rstep_like : forall e s c, like s c -> like (rstep' s e) (fold_left (step ntop6) (seen [e]) c).
Proof.
  intros e s c H. destruct e as [b| |n|]; cbn [seen fold_left rstep step].
  - unfold like in *. cbn [r_phase r_auth r_out r_sent r_in r_eof]. destruct (r_phase s).
    + subst c. reflexivity. + destruct H as (-> & K). split; [reflexivity|assumption].
    + destruct H as [H|[H|(h & p & H & K)]]; [auto| |]; unfold receive; rewrite H; [right; left; assumption|right; right; cbn [c_phase]; eauto].
  - unfold like in *. cbn [r_phase r_auth r_out r_sent r_in r_eof]. destruct (r_phase s); auto.
  - unfold like in *. cbn [r_phase r_auth r_out r_sent r_in r_eof]. destruct (r_phase s); auto.
  - unfold pre_rdynamic. unfold like in H. destruct (r_phase s) eqn:P.
    + subst c. destruct (r_eof s) eqn:E; [unfold like; cbn; auto|]. destruct (zlen (r_out s) <? 3) eqn:L.
      * unfold like. rewrite P. unfold pre_dynamic. cbn [c_phase c_auth c_in c_out]. now rewrite decode_short by lia.
      * unfold pre_dynamic. cbn [c_phase c_auth c_in c_out]. destruct (decode' (r_auth s) (r_out s)) eqn:D.
        -- unfold like. cbn. auto.
        -- apply flush_like. unfold like. now rewrite P.
        -- apply flush_like. unfold like. cbn [r_phase r_auth r_out r_sent r_in r_eof]. now rewrite app_assoc.
        -- unfold like. cbn [r_phase r_auth r_out r_sent r_in r_eof]. destruct (ok host port) eqn:K; [split; [now rewrite app_assoc|assumption]|]. right; right. cbn [c_phase]. eauto.
    + destruct H as (-> & K). unfold like. rewrite P. auto.
    + unfold like. rewrite P. destruct H as [H|[H|(h & p & H & K)]]; [auto| |]; unfold pre_dynamic; rewrite H, ?H; eauto 6.
Qed.
Lemma rplay_like : forall w evs, like (rplay' w evs) (play ntop6 (seen evs)).
Proof.
  intros w evs. induction evs as [|e evs IH] using rev_ind; [reflexivity|]. unfold rplay, play in *. rewrite seen_app, !fold_left_app. cbn [fold_left]. apply rstep_like. exact IH.
Qed.
Fixpoint adjusted (evs : list revent) : Z := match evs with [] => 0 | RAdjust n :: r => n + adjusted r | _ :: r => adjusted r end.
Lemma adjusted_app : forall a b, adjusted (a ++ b) = adjusted a + adjusted b.
Proof. induction a as [|e a IH]; intros b; [reflexivity|]. destruct e; cbn [adjusted app]; rewrite ?IH; lia. Qed.
Lemma window_sum : forall w evs, 0 <= w -> (forall n, In (RAdjust n) evs -> 0 <= n) -> zlen (r_sent (rplay' w evs)) + r_window (rplay' w evs) = w + adjusted evs /\ 0 <= r_window (rplay' w evs).
Proof.
  intros w evs Hw. induction evs as [|e evs IH] using rev_ind; intros N; [cbn; split; lia|]. assert (N' : forall n, In (RAdjust n) evs -> 0 <= n) by (intros n I; apply N; apply in_app_iff; auto). specialize (IH N'). rewrite adjusted_app. unfold rplay in *. rewrite fold_left_app. cbn [fold_left]. set (s := fold_left _ evs _) in *.
  assert (F : forall t, zlen (r_sent t) + r_window t = w + adjusted evs /\ 0 <= r_window t -> zlen (r_sent (flush t)) + r_window (flush t) = w + adjusted evs /\ 0 <= r_window (flush t)).
  { intros t H. unfold flush. cbv zeta. destruct ((0 <? zlen (r_in t)) && (zlen (r_in t) <? r_window t)) eqn:Q; [|assumption]. cbn [r_sent r_window]. rewrite zlen_app. lia. }
  destruct e as [b| |n|]; cbn [rstep r_sent r_window adjusted]; rewrite ?Z.add_0_r; try assumption.
  - specialize (N n ltac:(apply in_app_iff; right; left; reflexivity)). lia.
  - unfold pre_rdynamic. destruct (r_phase s); try assumption. destruct (r_eof s); [exact IH|]. destruct (_ <? 3); [exact IH|]. destruct (decode' _ _); try exact IH; apply F; exact IH.
Qed.
Lemma no_eof : forall w evs, ~ In REof evs -> r_eof (rplay' w evs) = false.
Proof.
  intros w evs. induction evs as [|e evs IH] using rev_ind; intros N; [reflexivity|]. assert (N' : ~ In REof evs) by (intros I; apply N; apply in_app_iff; auto). specialize (IH N'). unfold rplay in *. rewrite fold_left_app. cbn [fold_left]. set (s := fold_left _ evs _) in *.
  destruct e as [b| |n|]; cbn [rstep r_eof]; auto; [exfalso; apply N; apply in_app_iff; right; left; reflexivity|].
  assert (F : forall t, r_eof (flush t) = r_eof t) by (intros t; unfold flush; cbv zeta; destruct (_ && _); reflexivity).
  unfold pre_rdynamic. destruct (r_phase s); auto. rewrite IH. destruct (_ <? 3); auto. destruct (decode' _ _); auto; rewrite F; auto.
Qed.
End R.
End S.
