From Verif Require Import Base SshbufModel SshbufSpec SshbufProof WireSpec WireProof Dec MiscNumModel SocksModel SocksSpec.
Local Open Scope Z_scope.

(** ** Decimal text *)
Lemma value_app : forall s acc c, value acc (s ++ [c]) = value acc s * 10 + (c - 48).
Proof. induction s as [|a s IH]; intros acc c; cbn [value app]; [reflexivity|]. apply IH. Qed.
Definition dig (c : Z) : Prop := 48 <= c <= 57.
Lemma value_ge : forall s acc, Forall dig s -> 0 <= acc -> acc <= value acc s.
Proof. induction s as [|a s IH]; intros acc F H; cbn [value]; [lia|]. inversion F as [|? ? D F']; subst. unfold dig in D. specialize (IH (acc * 10 + (a - 48)) F'). lia. Qed.
Lemma value_pos : forall s, Forall dig s -> s <> [] -> hd 0 s <> 48 -> 1 <= value 0 s.
Proof. intros [|a s] F N H; [congruence|]. cbn [value hd] in *. inversion F as [|? ? D F']; subst. unfold dig in D. pose proof (value_ge s (0 * 10 + (a - 48)) F'). lia. Qed.
Lemma value_inj : forall s t, Forall dig s -> Forall dig t -> hd 0 s <> 48 -> hd 0 t <> 48 -> value 0 s = value 0 t -> s = t.
Proof.
  induction s as [|c s IH] using rev_ind; intros t Fs Ft Hs Ht E.
  - destruct t as [|d t]; [reflexivity|]. pose proof (value_pos (d :: t) Ft ltac:(congruence) Ht). change (value 0 []) with 0 in E. lia.
  - destruct t as [|d t _] using rev_ind.
    + pose proof (value_pos (s ++ [c]) Fs ltac:(destruct s; discriminate) Hs). cbn [value] in E. lia.
    + rewrite !value_app in E. apply Forall_app in Fs as (Fs & Dc). apply Forall_app in Ft as (Ft & Dd). inversion Dc as [|? ? Dc' _]; inversion Dd as [|? ? Dd' _]; subst. unfold dig in Dc', Dd'.
      assert (c = d) by lia. subst d. f_equal. apply IH; auto; [| |lia].
      * destruct s; [cbn; lia|exact Hs]. * destruct t; [cbn; lia|exact Ht].
Qed.
Lemma numeral_inj : forall s t n, numeral s n -> numeral t n -> s = t.
Proof.
  intros s t n (Ns & Fs & Zs & Vs) (Nt & Ft & Zt & Vt). fold dig in *.
  destruct (Z.eq_dec (hd 0 s) 48) as [Hs|Hs], (Z.eq_dec (hd 0 t) 48) as [Ht|Ht].
  - rewrite (Zs Hs), (Zt Ht). reflexivity.
  - pose proof (value_pos t Ft Nt Ht). rewrite (Zs Hs) in Vs. cbn in Vs. lia.
  - pose proof (value_pos s Fs Ns Hs). rewrite (Zt Ht) in Vt. cbn in Vt. lia.
  - apply value_inj; auto. congruence.
Qed.
Lemma byte_numeral : forall n, 0 <= n < 256 -> numeral (byte_text n) n.
Proof.
  intros n H. unfold byte_text, numeral. pose proof (Z.div_mod n 10). pose proof (Z.mod_pos_bound n 10). pose proof (Z.div_mod n 100). pose proof (Z.mod_pos_bound n 100).
  pose proof (Z.div_mod (n / 10) 10). pose proof (Z.mod_pos_bound (n / 10) 10). assert (n / 10 / 10 = n / 100) by now rewrite Z.div_div by lia.
  destruct (n <? 10) eqn:A; [|destruct (n <? 100) eqn:B]; cbn [hd value]; (split; [discriminate|]); (split; [repeat constructor; lia|]); (split; [|lia]); intros Q; try lia. f_equal; lia.
Qed.
Lemma dotted_text : forall a b c d, is_bytes [a; b; c; d] -> ipv4_text (dotted a b c d) [a; b; c; d].
Proof.
  intros a b c d H. inversion_clear H as [|? ? A H1]. inversion_clear H1 as [|? ? B H2]. inversion_clear H2 as [|? ? C H3]. inversion_clear H3 as [|? ? D _].
  exists a, b, c, d, (byte_text a), (byte_text b), (byte_text c), (byte_text d). splits; auto using byte_numeral.
Qed.
Lemma dotted_only : forall a b c d h, is_bytes [a; b; c; d] -> ipv4_text h [a; b; c; d] -> h = dotted a b c d.
Proof.
  intros a b c d h H (a' & b' & c' & d' & ta & tb & tc & td & E & -> & A & B & C & D). injection E as <- <- <- <-.
  inversion_clear H as [|? ? Ha H1]. inversion_clear H1 as [|? ? Hb H2]. inversion_clear H2 as [|? ? Hc H3]. inversion_clear H3 as [|? ? Hd _].
  unfold dotted. rewrite (numeral_inj _ _ _ A (byte_numeral a Ha)), (numeral_inj _ _ _ B (byte_numeral b Hb)), (numeral_inj _ _ _ C (byte_numeral c Hc)), (numeral_inj _ _ _ D (byte_numeral d Hd)). reflexivity.
Qed.

(** ** NULs *)
Lemma nul_split : forall p, ~ In 0 p \/ exists u r, p = u ++ 0 :: r /\ ~ In 0 u.
Proof.
  induction p as [|c p [N|(u & r & -> & N)]]; [left; intros []| |].
  - destruct (Z.eq_dec c 0) as [-> |D]; [right; exists [], p; auto|]. left. intros [|]; auto.
  - destruct (Z.eq_dec c 0) as [-> |D]; [right; exists [], (u ++ 0 :: r); auto|]. right. exists (c :: u), r. split; [reflexivity|]. intros [|]; auto.
Qed.
Lemma cstr_split : forall u r, ~ In 0 u -> MiscNumModel.cstr (u ++ 0 :: r) = u.
Proof. induction u as [|c u IH]; intros r N; [reflexivity|]. cbn [app MiscNumModel.cstr]. destruct (c =? 0) eqn:E; [exfalso; apply N; left; lia|]. f_equal. apply IH. intros I. apply N. now right. Qed.
Lemma cstr_whole : forall u, ~ In 0 u -> MiscNumModel.cstr u = u.
Proof. induction u as [|c u IH]; intros N; [reflexivity|]. cbn [MiscNumModel.cstr]. destruct (c =? 0) eqn:E; [exfalso; apply N; left; lia|]. f_equal. apply IH. intros I. apply N. now right. Qed.
Lemma cstr_up : forall s t, up_to_nul s t <-> MiscNumModel.cstr s = t.
Proof.
  intros s t. split.
  - intros (N & [-> |(u & ->)]); [now apply cstr_whole|now apply cstr_split].
  - intros <-. destruct (nul_split s) as [N|(u & r & -> & N)]; [rewrite cstr_whole by assumption; split; auto|]. rewrite cstr_split by assumption. split; [assumption|]. right. now exists r.
Qed.
Lemma has_nul_split : forall u r, has_nul (u ++ 0 :: r) = true.
Proof. intros u r. unfold has_nul. apply existsb_exists. exists 0. split; [apply in_app_iff; right; left; reflexivity|reflexivity]. Qed.
Lemma drop_split : forall (u r : list Z), zdrop (zlen u + 1) (u ++ 0 :: r) = r.
Proof. intros u r. change (u ++ 0 :: r) with (u ++ [0] ++ r). rewrite app_assoc. apply zdrop_app_exact. rewrite zlen_app, zlen_cons, zlen_nil. lia. Qed.

Lemma scan_over : forall u n f i r, ~ In 0 u -> 0 <= i -> 1025 < i + zlen u -> i <= 1025 -> scan n f i (u ++ r) = TooLong.
Proof.
  induction u as [|c u IH]; intros n f i r N P L M; [rewrite zlen_nil in L; lia|]. rewrite zlen_cons in L. cbn [app scan]. cbv zeta. destruct (c =? 0) eqn:E; [exfalso; apply N; left; lia|]. cbn [andb].
  destruct (1024 <? i) eqn:G; [reflexivity|]. apply IH; try lia. intros I. apply N. now right.
Qed.
Lemma scan_none : forall u n f i, ~ In 0 u -> i + zlen u <= 1025 -> scan n f i u = Missing.
Proof.
  induction u as [|c u IH]; intros n f i N L; [reflexivity|]. rewrite zlen_cons in L. pose proof (zlen_nonneg _ u). cbn [scan]. cbv zeta. destruct (c =? 0) eqn:E; [exfalso; apply N; left; lia|]. cbn [andb].
  replace (1024 <? i) with false by lia. apply IH; [|lia]. intros I. apply N. now right.
Qed.
Lemma scan_nul : forall u n f i r, ~ In 0 u -> i + zlen u <= 1025 ->
  scan n f i (u ++ 0 :: r) = if f + 1 =? n then Found else if 1024 <? i + zlen u then TooLong else scan n (f + 1) (i + zlen u + 1) r.
Proof.
  induction u as [|c u IH]; intros n f i r N L.
  - cbn [app scan]. cbv zeta. rewrite zlen_nil, Z.add_0_r. cbn [andb]. replace (0 =? 0) with true by lia. reflexivity.
  - rewrite zlen_cons in *. pose proof (zlen_nonneg _ u). cbn [app scan]. cbv zeta. destruct (c =? 0) eqn:E; [exfalso; apply N; left; lia|]. cbn [andb].
    replace (1024 <? i) with false by lia. rewrite IH; [|intros I; apply N; now right|lia]. replace (i + 1 + zlen u) with (i + (zlen u + 1)) by lia. reflexivity.
Qed.
Lemma scan_mono : forall p n f i m, scan n f i p <> Missing -> scan n f i (p ++ m) = scan n f i p.
Proof.
  induction p as [|c p IH]; intros n f i m H; [contradiction H; reflexivity|]. cbn [app scan] in *. cbv zeta in *. destruct (_ && _); [reflexivity|]. destruct (1024 <? i); [reflexivity|]. now apply IH.
Qed.
Lemma scan_missing : forall p n f i, i <= 1025 -> scan n f i p = Missing -> i + zlen p <= 1025.
Proof.
  induction p as [|c p IH]; intros n f i L H; [rewrite zlen_nil; lia|]. cbn [scan] in H. cbv zeta in H. destruct (_ && _); [discriminate|]. destruct (1024 <? i) eqn:G; [discriminate|]. rewrite zlen_cons. apply IH in H; lia.
Qed.
Lemma scan_found : forall f i p n, 0 <= i <= 1025 -> f + 1 = n -> scan n f i p = Found -> exists u r, p = u ++ 0 :: r /\ ~ In 0 u /\ i + zlen u <= 1025.
Proof.
  intros f i p n L E H. destruct (nul_split p) as [N|(u & r & -> & N)].
  - destruct (Z_le_gt_dec (i + zlen p) 1025); [rewrite scan_none in H by (auto; lia); discriminate|]. rewrite <- (app_nil_r p) in H. rewrite scan_over in H by (auto; lia). discriminate.
  - exists u, r. splits; auto. destruct (Z_le_gt_dec (i + zlen u) 1025); [lia|]. rewrite scan_over in H by (auto; lia). discriminate.
Qed.
Lemma scan_found2 : forall i p, 0 <= i <= 1025 -> scan 2 0 i p = Found -> exists u h r, p = u ++ 0 :: h ++ 0 :: r /\ ~ In 0 u /\ ~ In 0 h /\ i + zlen u + 1 + zlen h <= 1025.
Proof.
  intros i p L H. destruct (nul_split p) as [N|(u & r & -> & N)].
  - destruct (Z_le_gt_dec (i + zlen p) 1025); [rewrite scan_none in H by (auto; lia); discriminate|]. rewrite <- (app_nil_r p) in H. rewrite scan_over in H by (auto; lia). discriminate.
  - destruct (Z_le_gt_dec (i + zlen u) 1025); [|rewrite scan_over in H by (auto; lia); discriminate]. rewrite scan_nul in H by (auto; lia). replace (0 + 1 =? 2) with false in H by lia.
    destruct (1024 <? i + zlen u) eqn:G; [discriminate|]. pose proof (zlen_nonneg _ u). apply scan_found in H as (h & r' & -> & Nh & Lh); [|lia|lia]. exists u, h, r'. splits; auto.
Qed.

(** ** SOCKS4 *)
Definition named (a b c d : Z) : bool := (a =? 0) && (b =? 0) && (c =? 0) && negb (d =? 0).
Lemma decode4_addr : forall v cmd p1 p2 a b c d u r, named a b c d = false -> ~ In 0 u -> 8 + zlen u <= 1025 ->
  decode4 (v :: cmd :: p1 :: p2 :: a :: b :: c :: d :: u ++ 0 :: r) = finish4 cmd p1 p2 (dotted a b c d) r.
Proof.
  intros v cmd p1 p2 a b c d u r N Hu L. cbn [decode4]. cbv zeta. fold (named a b c d). rewrite N. rewrite scan_nul by assumption. replace (0 + 1 =? 1) with true by lia. rewrite has_nul_split. cbn [negb]. rewrite cstr_split by assumption. rewrite drop_split. reflexivity.
Qed.
Lemma decode4_name : forall v cmd p1 p2 a b c d u h r, named a b c d = true -> ~ In 0 u -> ~ In 0 h -> 8 + zlen u + 1 + zlen h <= 1025 ->
  decode4 (v :: cmd :: p1 :: p2 :: a :: b :: c :: d :: u ++ 0 :: h ++ 0 :: r) = finish4 cmd p1 p2 h r.
Proof.
  intros v cmd p1 p2 a b c d u h r N Hu Hh L. pose proof (zlen_nonneg _ u). pose proof (zlen_nonneg _ h). cbn [decode4]. cbv zeta. fold (named a b c d). rewrite N. rewrite scan_nul by (auto; lia). replace (0 + 1 =? 2) with false by lia. replace (1024 <? 8 + zlen u) with false by lia.
  rewrite scan_nul by (auto; lia). replace (0 + 1 + 1 =? 2) with true by lia. rewrite has_nul_split. cbn [negb]. rewrite cstr_split by assumption. rewrite drop_split. rewrite has_nul_split. cbn [negb]. replace (2 =? 1) with false by lia. rewrite cstr_split by assumption.
  unfold NI_MAXHOST. replace (1025 <? zlen h + 1) with false by lia. now rewrite drop_split.
Qed.
Inductive shape4 : list Z -> Z -> Z -> Z -> list Z -> list Z -> Prop :=
| sh_addr : forall v cmd p1 p2 a b c d u r, named a b c d = false -> ~ In 0 u -> 8 + zlen u <= 1025 ->
    shape4 (v :: cmd :: p1 :: p2 :: a :: b :: c :: d :: u ++ 0 :: r) cmd p1 p2 (dotted a b c d) r
| sh_name : forall v cmd p1 p2 a b c d u h r, named a b c d = true -> ~ In 0 u -> ~ In 0 h -> 8 + zlen u + 1 + zlen h <= 1025 ->
    shape4 (v :: cmd :: p1 :: p2 :: a :: b :: c :: d :: u ++ 0 :: h ++ 0 :: r) cmd p1 p2 h r.
Lemma shape4_eq : forall i cmd p1 p2 h r, shape4 i cmd p1 p2 h r -> decode4 i = finish4 cmd p1 p2 h r.
Proof. intros i cmd p1 p2 h r []; [now apply decode4_addr|now apply decode4_name]. Qed.
Lemma shape4_app : forall i cmd p1 p2 h r m, shape4 i cmd p1 p2 h r -> shape4 (i ++ m) cmd p1 p2 h (r ++ m).
Proof.
  intros i cmd p1 p2 h r m []; cbn [app]; repeat (rewrite <- app_assoc; cbn [app]); now constructor.
Qed.
Lemma decode4_cases : forall i, decode4 i = More /\ zlen i <= 1025 \/ (decode4 i = Bad /\ forall m, decode4 (i ++ m) = Bad) \/ exists cmd p1 p2 h r, shape4 i cmd p1 p2 h r.
Proof.
  intros i. destruct i as [|v [|cmd [|p1 [|p2 [|a [|b [|c [|d r]]]]]]]]; try (left; split; [reflexivity|unfold zlen; cbn; lia]).
  pose (need := if named a b c d then 2 else 1). destruct (scan need 0 8 r) eqn:S.
  - right; right. unfold need in S. destruct (named a b c d) eqn:N.
    + apply scan_found2 in S as (u & h & r' & -> & Nu & Nh & L); [|lia]. repeat eexists. apply sh_name; assumption.
    + apply scan_found in S as (u & r' & -> & Nu & L); [|lia|lia]. repeat eexists. apply sh_addr; assumption.
  - left. cbn [decode4]. cbv zeta. fold (named a b c d). fold need. rewrite S. split; [reflexivity|]. apply scan_missing in S; [|lia]. rewrite !zlen_cons. lia.
  - right; left. split; [|intros m; cbn [app]]; cbn [decode4]; cbv zeta; fold (named a b c d); fold need; [now rewrite S|]. rewrite scan_mono by congruence. now rewrite S.
Qed.
Lemma decode4_mono : forall i m, decode4 (i ++ m) = match decode4 i with Bad => Bad | More => decode4 (i ++ m) | Agreed r => Agreed (r ++ m) | Ask h p r o => Ask h p (r ++ m) o end.
Proof.
  intros i m. destruct (decode4_cases i) as [(-> & _)|[(-> & B)|(cmd & p1 & p2 & h & r & S)]]; [reflexivity|apply B|].
  rewrite (shape4_eq _ _ _ _ _ _ S). rewrite (shape4_eq _ _ _ _ _ _ (shape4_app _ _ _ _ _ _ m S)). unfold finish4. destruct (negb (cmd =? 1)); reflexivity.
Qed.
Lemma named_iff : forall a b c d, named a b c d = true <-> exists x, [a; b; c; d] = [0; 0; 0; x] /\ x <> 0.
Proof.
  intros a b c d. unfold named. split.
  - intros H. exists d. split; [|lia]. assert (a = 0) by lia. assert (b = 0) by lia. assert (c = 0) by lia. congruence.
  - intros (x & E & N). injection E as -> -> -> ->. lia.
Qed.
Lemma two_bytes : forall p1 p2, is_byte p1 -> is_byte p2 -> be_enc 2 (p1 * 256 + p2) = [p1; p2] /\ 0 <= p1 * 256 + p2 < 65536.
Proof.
  intros p1 p2 A B. unfold is_byte in *. split; [|lia]. pose proof (be_enc_dec [p1; p2]) as E. cbn [length] in E. change (be_dec [p1; p2]) with ((0 * 256 + p1) * 256 + p2) in E. rewrite Z.mul_0_l, Z.add_0_l in E. apply E. repeat constructor; unfold is_byte; lia.
Qed.
Lemma be2_ex : forall p, exists a b, be_enc 2 p = [a; b] /\ (0 <= p < 65536 -> a * 256 + b = p) /\ is_byte a /\ is_byte b.
Proof.
  intros p. pose proof (be_enc_length 2 p) as L. pose proof (be_enc_bytes 2 p) as B. destruct (be_enc 2 p) as [|a [|b [|]]] eqn:E; try discriminate. exists a, b. inversion_clear B as [|? ? Ba B1]. inversion_clear B1 as [|? ? Bb _]. splits; auto.
  intros R. assert (be_dec (be_enc 2 p) = p) as Q by (apply be_dec_enc_id; exact R). rewrite E in Q. change (be_dec [a; b]) with ((0 * 256 + a) * 256 + b) in Q. lia.
Qed.
Lemma four : forall l : list Z, length l = 4%nat -> exists a b c d, l = [a; b; c; d].
Proof. intros [|a [|b [|c [|d [|]]]]] L; try discriminate. now exists a, b, c, d. Qed.
Definition reply4 : list Z := [0; 90; 0; 0; 0; 0; 0; 0].
Lemma decode4_sound : forall i h p r o, is_bytes i -> nth 0 i 0 = 4 -> decode4 i = Ask h p r o -> exists q, i = q ++ r /\ request4 q h p /\ o = reply4.
Proof.
  intros i h p r o Hb V H. destruct (decode4_cases i) as [(E & _)|[(E & _)|(cmd & p1 & p2 & h' & r' & S)]]; try congruence.
  rewrite (shape4_eq _ _ _ _ _ _ S) in H. unfold finish4 in H. destruct (cmd =? 1) eqn:C; [|discriminate]. cbn [negb] in H. injection H as -> <- -> <-. assert (cmd = 1) by lia. subst cmd.
  inversion S as [v c1 q1 q2 a b c d u rr N Nu L E1 | v c1 q1 q2 a b c d u hh rr N Nu Nh L E1]; subst; cbn [nth] in V; subst v.
  - inversion_clear Hb as [|? ? _ B1]. inversion_clear B1 as [|? ? _ B2]. inversion_clear B2 as [|? ? X1 B3]. inversion_clear B3 as [|? ? X2 B4]. destruct (two_bytes p1 p2 X1 X2) as (E & R).
    exists (4 :: 1 :: be_enc 2 (p1 * 256 + p2) ++ [a; b; c; d] ++ u ++ [0]). split; [rewrite E; cbn [app]; repeat (rewrite <- app_assoc; cbn [app]); reflexivity|]. split; [|reflexivity]. apply r4_addr; auto; [intros Q; apply named_iff in Q; congruence|lia|]. apply dotted_text.
    change (a :: b :: c :: d :: u ++ 0 :: r) with ([a; b; c; d] ++ u ++ 0 :: r) in B4. apply is_bytes_app in B4. tauto.
  - inversion_clear Hb as [|? ? _ B1]. inversion_clear B1 as [|? ? _ B2]. inversion_clear B2 as [|? ? X1 B3]. inversion_clear B3 as [|? ? X2 B4]. destruct (two_bytes p1 p2 X1 X2) as (E & R). apply named_iff in N as (x & Q & Nx). injection Q as -> -> -> ->.
    exists (4 :: 1 :: be_enc 2 (p1 * 256 + p2) ++ [0; 0; 0; x] ++ u ++ [0] ++ h ++ [0]). split; [rewrite E; cbn [app]; repeat (rewrite <- app_assoc; cbn [app]); reflexivity|]. split; [|reflexivity]. apply r4_name; auto; lia.
Qed.
Lemma decode4_complete : forall q h p r, is_bytes q -> request4 q h p -> decode4 (q ++ r) = Ask h p r reply4 /\ nth 0 (q ++ r) 0 = 4 /\ 3 <= zlen (q ++ r).
Proof.
  intros q h p r Hb Q0. revert Hb. destruct Q0 as [port addr user host L N Nu R Len T | port x user host Nx Nu Nh R Len]; intros Hb; destruct (be2_ex port) as (p1 & p2 & E & V & B1 & B2); rewrite E in *; specialize (V R).
  - destruct (four addr L) as (a & b & c & d & ->). cbn [app]. repeat (rewrite <- app_assoc; cbn [app]). split; [|split; [reflexivity|rewrite !zlen_cons; pose proof (zlen_nonneg _ (user ++ 0 :: r)); lia]].
    rewrite decode4_addr; [|destruct (named a b c d) eqn:Q; [apply named_iff in Q; contradiction|reflexivity]|assumption|lia]. unfold finish4. replace (1 =? 1) with true by lia. cbn [negb]. rewrite V. f_equal. symmetry. apply dotted_only; [|assumption].
    change (4 :: 1 :: [p1; p2] ++ [a; b; c; d] ++ user ++ [0]) with ([4; 1; p1; p2] ++ [a; b; c; d] ++ user ++ [0]) in Hb. apply is_bytes_app in Hb as (_ & Hb). apply is_bytes_app in Hb. tauto.
  - cbn [app]. repeat (rewrite <- app_assoc; cbn [app]). split; [|split; [reflexivity|rewrite !zlen_cons; pose proof (zlen_nonneg _ (user ++ 0 :: host ++ 0 :: r)); lia]].
    rewrite decode4_name; [|apply named_iff; exists x; auto|assumption|assumption|lia]. unfold finish4. replace (1 =? 1) with true by lia. cbn [negb]. now rewrite V.
Qed.
