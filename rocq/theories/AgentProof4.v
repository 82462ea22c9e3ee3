(** The parsing loops end; destination constraints written by ssh-add are read back
    exactly. *)
From Coq Require Import String.
From Verif Require Import Base Text SshbufModel SshbufSpec SshbufProof WireSpec WireProof MatchModel Dec AuthOptModel AgentModel AgentSpec AgentProof AgentProof2.
From Verif Require KrlProof5.
Open Scope Z_scope.

Section Ends.
Variable c : cfg.
Variable en : env.
Lemma get_key_shorter : forall l k r, get_key c l = Some (k, r) -> (length r < length l)%nat.
Proof. intros l k r H. unfold get_key in H. destruct (get_str l) as [[b r']|] eqn:E; [|discriminate]. destruct (c_key c b); [|discriminate]. injection H as _ <-. now apply KrlProof5.get_str_shorter in E. Qed.
Lemma hop_keys_ends : forall f b, (length b <= f)%nat -> hop_keys c f b <> Spin.
Proof.
  induction f as [|f IH]; intros b L; destruct b as [|x b]; try discriminate; [cbn in L; lia|]. cbn [hop_keys].
  destruct (get_key c (x :: b)) as [[k b1]|] eqn:E1; [|discriminate]. cbn [need bind]. apply get_key_shorter in E1.
  destruct (get_int 1 b1) as [[v b2]|] eqn:E2; [|discriminate]. cbn [need bind]. apply KrlProof5.get_int_shorter in E2; [|lia].
  cbn [length] in E1, L. specialize (IH b2 ltac:(lia)). destruct (hop_keys c f b2); [discriminate|discriminate|congruence].
Qed.
Lemma hop_ends : forall b, parse_dest_constraint_hop c b <> Spin.
Proof.
  intros b. unfold parse_dest_constraint_hop. destruct (get_cstr b) as [[u b1]|]; [|discriminate]. cbn [need bind].
  destruct (get_cstr b1) as [[h b2]|]; [|discriminate]. cbn [need bind]. destruct (get_str b2) as [[x b3]|]; [|discriminate]. cbn [need bind].
  destruct (negb _); [discriminate|]. pose proof (hop_keys_ends (length b3) b3 ltac:(lia)). destruct (hop_keys c (length b3) b3); [discriminate|discriminate|congruence].
Qed.
Lemma dc_ends : forall m, parse_dest_constraint c m <> Spin /\ forall d r, parse_dest_constraint c m = Good (d, r) -> (length r < length m)%nat.
Proof.
  intros m. unfold parse_dest_constraint. destruct (get_str m) as [[b rest]|] eqn:E; [|split; [discriminate|discriminate]]. cbn [need bind]. apply KrlProof5.get_str_shorter in E.
  destruct (get_str b) as [[f b1]|]; [|split; [discriminate|discriminate]]. cbn [need bind]. destruct (get_str b1) as [[t b2]|]; [|split; [discriminate|discriminate]]. cbn [need bind].
  destruct (get_str b2) as [[x b3]|]; [|split; [discriminate|discriminate]]. cbn [need bind].
  pose proof (hop_ends f). destruct (parse_dest_constraint_hop c f) as [hf| |]; [|split; discriminate|congruence]. cbn [bind].
  pose proof (hop_ends t). destruct (parse_dest_constraint_hop c t) as [ht| |]; [|split; discriminate|congruence]. cbn [bind].
  destruct (negb (zlen x =? 0)); [split; discriminate|]. destruct (negb _ || _); [split; discriminate|]. destruct (negb _ || _); [split; discriminate|].
  split; [discriminate|]. intros d r K. injection K as _ <-. exact E.
Qed.
Lemma dcs_ends : forall f b acc, (length b <= f)%nat -> parse_dcs c f b acc <> Spin.
Proof.
  induction f as [|f IH]; intros b acc L; destruct b as [|x b]; try discriminate; cbn [parse_dcs].
  - destruct (_ <=? _); [discriminate|]. cbn in L. lia.
  - destruct (_ <=? _); [discriminate|]. destruct (dc_ends (x :: b)) as [N S]. destruct (parse_dest_constraint c (x :: b)) as [[d r]| |]; [|discriminate|congruence].
    cbn [bind]. specialize (S d r eq_refl). cbn [length] in S, L. apply IH. lia.
Qed.
Lemma certs_ends : forall f b acc, (length b <= f)%nat -> parse_certs c f b acc <> Spin.
Proof.
  induction f as [|f IH]; intros b acc L; destruct b as [|x b]; try discriminate; cbn [parse_certs].
  - destruct (_ <=? _); [discriminate|]. cbn in L. lia.
  - destruct (_ <=? _); [discriminate|]. destruct (get_key c (x :: b)) as [[k b1]|] eqn:E; [|discriminate]. cbn [need bind]. apply get_key_shorter in E. cbn [length] in E, L. apply IH. lia.
Qed.
Lemma ext_ends : forall card m q, parse_key_constraint_extension c card m q <> Spin /\ forall q' r, parse_key_constraint_extension c card m q = Good (q', r) -> (length r < length m)%nat.
Proof.
  intros card m q. unfold parse_key_constraint_extension. destruct (get_cstr m) as [[n m1]|] eqn:E; [|split; discriminate]. cbn [need bind]. apply KrlProof5.get_cstr_shorter in E.
  destruct (beqb n (bs "sk-provider@openssh.com")).
  { destruct card; [split; discriminate|]. destruct (is_some _); [split; discriminate|]. destruct (get_cstr m1) as [[p m2]|] eqn:E2; [|split; discriminate]. cbn [need bind].
    apply KrlProof5.get_cstr_shorter in E2. split; [discriminate|]. intros q' r K. injection K as _ <-. lia. }
  destruct (beqb n (bs "restrict-destination-v00@openssh.com")).
  { destruct (negb _); [split; discriminate|]. destruct (get_str m1) as [[b m2]|] eqn:E2; [|split; discriminate]. cbn [need bind]. apply KrlProof5.get_str_shorter in E2.
    pose proof (dcs_ends (length b) b (q_dcs q) ltac:(lia)). destruct (parse_dcs c (length b) b (q_dcs q)); [|split; discriminate|congruence]. cbn [bind].
    split; [discriminate|]. intros q' r K. injection K as _ <-. lia. }
  destruct (beqb n (bs "associated-certs-v00@openssh.com")); [|split; discriminate].
  destruct (negb card); [split; discriminate|]. destruct (negb _); [split; discriminate|]. destruct (get_int 1 m1) as [[v m2]|] eqn:E2; [|split; discriminate]. cbn [need bind].
  apply KrlProof5.get_int_shorter in E2; [|lia]. destruct (get_str m2) as [[b m3]|] eqn:E3; [|split; discriminate]. cbn [need bind]. apply KrlProof5.get_str_shorter in E3.
  pose proof (certs_ends (length b) b (q_certs q) ltac:(lia)). destruct (parse_certs c (length b) b (q_certs q)); [|split; discriminate|congruence]. cbn [bind].
  split; [discriminate|]. intros q' r K. injection K as _ <-. lia.
Qed.
Lemma constraints_end : forall f k m q, (length m <= f)%nat -> parse_key_constraints c en f k m q <> Spin.
Proof.
  induction f as [|f IH]; intros k m q L; destruct m as [|x m]; try discriminate; [cbn in L; lia|]. cbn [parse_key_constraints].
  destruct (get_int 1 (x :: m)) as [[t m1]|] eqn:E; [|discriminate]. cbn [need bind]. apply KrlProof5.get_int_shorter in E; [|lia]. cbn [length] in E, L.
  destruct (t =? 1).
  { destruct (negb _); [discriminate|]. destruct (get_int 4 m1) as [[s m2]|] eqn:E2; [|discriminate]. cbn [need bind]. apply KrlProof5.get_int_shorter in E2; [|lia]. apply IH. lia. }
  destruct (t =? 2).
  { destruct (q_confirm q); [discriminate|]. apply IH. lia. }
  destruct (t =? 3).
  { destruct k as [k|]; [|discriminate]. destruct (negb _); [discriminate|]. destruct (get_int 4 m1) as [[s m2]|] eqn:E2; [|discriminate]. cbn [need bind]. apply KrlProof5.get_int_shorter in E2; [|lia].
    destruct (negb _); [discriminate|]. apply IH. lia. }
  destruct (t =? 255); [|discriminate]. destruct (ext_ends (negb (is_some k)) m1 q) as [N S].
  destruct (parse_key_constraint_extension c (negb (is_some k)) m1 q) as [[q' m2]| |]; [|discriminate|congruence]. cbn [bind]. specialize (S q' m2 eq_refl). apply IH. lia.
Qed.
End Ends.
Lemma add_ends : forall c en g e b, add_identity c en g e b <> Spin /\ add_smartcard c en g e b <> Spin.
Proof.
  intros c en g e b. split.
  - unfold add_identity. destruct (c_priv c b) as [[k b1]|]; [|discriminate]. cbn [need bind]. destruct (get_cstr b1) as [[cm b2]|]; [|discriminate]. cbn [need bind].
    pose proof (constraints_end c en (length b2) (Some k) b2 no_cons ltac:(lia)). destruct (parse_key_constraints c en (length b2) (Some k) b2 no_cons) as [q| |]; [|discriminate|congruence]. cbn [bind].
    destruct (check_sk c en e k (q_sk q)); [|discriminate]. cbn [need bind]. destruct (negb (e_shield en)); [discriminate|]. cbv zeta.
    destruct (lookup_identity k (g_ids g)) as [i|]; [|discriminate]. destruct (negb _); discriminate.
  - unfold add_smartcard. destruct (get_cstr b) as [[p b1]|]; [|discriminate]. cbn [need bind]. destruct (get_cstr b1) as [[pin b2]|]; [|discriminate]. cbn [need bind].
    pose proof (constraints_end c en (length b2) None b2 no_cons ltac:(lia)). destruct (parse_key_constraints c en (length b2) None b2 no_cons) as [q| |]; [|discriminate|congruence]. cbn [bind].
    destruct (_ && _); [discriminate|]. destruct (e_realpath en p) as [rp|]; [|discriminate]. cbn [need bind]. destruct (negb _); [discriminate|].
    destruct (add_p11_keys _ _ _ _ _ _ _). discriminate.
Qed.

(** ** Constraints as written by ssh-add *)
Section Enc.
Variable c : cfg.
Local Notation key_ok := (key_ok c).
Local Notation hop_ok := (hop_ok c).
Local Notation dcon_ok := (dcon_ok c).
Lemma zlen_enc : forall v, zlen (enc_string v) = 4 + zlen v.
Proof. intros v. unfold enc_string. rewrite zlen_app, zlen_be_enc. reflexivity. Qed.
Lemma enc_nonempty : forall v x, exists y z, enc_string v ++ x = y :: z.
Proof.
  intros v x. destruct (enc_string v ++ x) as [|y z] eqn:E; [|eauto]. apply (f_equal zlen) in E. rewrite zlen_app, zlen_enc, zlen_nil in E.
  pose proof (zlen_nonneg _ v). pose proof (zlen_nonneg _ x). lia.
Qed.
Lemma keys_back : forall l f, Forall (fun p => key_ok (fst p)) l -> (length (concat (map (fun p : akey * bool => wire_key_of (fst p) ++ ([if snd p then 1 else 0]%Z)) l)) <= f)%nat ->
  zlen (concat (map (fun p : akey * bool => wire_key_of (fst p) ++ ([if snd p then 1 else 0]%Z)) l)) <= 134217724 ->
  hop_keys c f (concat (map (fun p : akey * bool => wire_key_of (fst p) ++ ([if snd p then 1 else 0]%Z)) l)) = Good l.
Proof.
  induction l as [|[k isca] r IH]; intros f K L Z; [now destruct f|]. apply Forall_cons_iff in K as [K1 K2]. cbn [map concat fst snd] in *.
  set (tail := concat (map (fun p : akey * bool => wire_key_of (fst p) ++ ([if snd p then 1 else 0]%Z)) r)) in *.
  rewrite <- app_assoc in *. unfold wire_key_of in *. cbn [app] in *.
  destruct (enc_nonempty (k_blob k) ((if isca then 1 else 0) :: tail)) as (y & z & Ey).
  assert (Zb : zlen (k_blob k) <= 134217724 /\ zlen tail <= 134217724).
  { rewrite zlen_app, zlen_enc, zlen_cons in Z. pose proof (zlen_nonneg _ (k_blob k)). pose proof (zlen_nonneg _ tail). lia. }
  destruct f as [|f]; [rewrite Ey in L; cbn [length] in L; lia|]. rewrite Ey. cbn [hop_keys]. rewrite <- Ey. unfold get_key. rewrite get_str_enc by apply Zb.
  cbn [fst] in K1. unfold AgentSpec.key_ok in K1. rewrite K1. cbn [need bind]. rewrite get_u8_cons by (destruct isca; lia). cbn [need bind].
  rewrite IH; [|assumption| |apply Zb].
  - cbn [bind]. destruct isca; reflexivity.
  - rewrite app_length in L. cbn [length] in L. lia.
Qed.
Lemma nonempty_back : forall o, (forall u, o = Some u -> str_ok u) -> nonempty (match o with Some u => u | None => [] end) = o /\ ~ In 0 (match o with Some u => u | None => [] end).
Proof. intros [u|] H; [|split; [reflexivity|easy]]. destruct (H u eq_refl) as [N Z]. split; [|assumption]. destruct u; [congruence|reflexivity]. Qed.
Lemma hop_back : forall h, hop_ok h -> zlen (enc_hop h) <= 134217724 -> parse_dest_constraint_hop c (enc_hop h) = Good h.
Proof.
  intros h (U & Ho & K) Z. unfold enc_hop in *. destruct (nonempty_back _ U) as [N1 Z1]. destruct (nonempty_back _ Ho) as [N2 Z2].
  set (us := match h_user h with Some u => u | None => [] end) in *. set (hs := match h_host h with Some u => u | None => [] end) in *.
  rewrite !zlen_app, !zlen_enc in Z. rewrite zlen_nil in Z. pose proof (zlen_nonneg _ us). pose proof (zlen_nonneg _ hs).
  match type of Z with _ + (_ + (_ + zlen ?t)) <= _ => set (tail := t) in * end. pose proof (zlen_nonneg _ tail).
  unfold parse_dest_constraint_hop. rewrite get_cstr_enc by (try assumption; lia). cbn [need bind]. rewrite get_cstr_enc by (try assumption; lia). cbn [need bind].
  rewrite get_str_enc by (rewrite zlen_nil; lia). cbn [need bind]. change (zlen (@nil BinNums.Z) =? 0) with true. cbn [negb].
  unfold tail. rewrite keys_back; [|assumption|lia|fold tail; lia]. cbn [bind]. rewrite N1, N2. now destruct h.
Qed.
Lemma dcon_back : forall d rest, dcon_ok d -> zlen (enc_dcon d) <= 134217724 -> parse_dest_constraint c (enc_dcon d ++ rest) = Good (d, rest).
Proof.
  intros d rest (HF & HT & UF & EF & NT & KT) Z. unfold enc_dcon in *. rewrite zlen_enc, !zlen_app, !zlen_enc in Z. rewrite zlen_nil in Z.
  pose proof (zlen_nonneg _ (enc_hop (d_from d))). pose proof (zlen_nonneg _ (enc_hop (d_to d))).
  unfold parse_dest_constraint. rewrite get_str_enc by (rewrite !zlen_app, !zlen_enc, zlen_nil; lia). cbn [need bind].
  rewrite get_str_enc by lia. cbn [need bind]. rewrite get_str_enc by lia. cbn [need bind].
  rewrite <- (app_nil_r (enc_string [])). rewrite get_str_enc by (rewrite zlen_nil; lia). cbn [need bind].
  rewrite hop_back by (try assumption; lia). cbn [bind]. rewrite hop_back by (try assumption; lia). cbn [bind]. change (zlen (@nil BinNums.Z) =? 0) with true. cbn [negb].
  rewrite UF. cbn [is_some]. rewrite Bool.orb_false_r.
  replace (Bool.eqb (negb (is_some (h_host (d_from d)))) (is_nil (h_keys (d_from d)))) with true.
  2: { destruct (h_host (d_from d)), (h_keys (d_from d)); cbn; try reflexivity; exfalso; [destruct EF as [_ EF]; now specialize (EF eq_refl)|destruct EF as [EF _]; now specialize (EF eq_refl)]. }
  cbn [negb]. destruct (h_host (d_to d)); [|congruence]. destruct (h_keys (d_to d)); [congruence|]. cbn [is_some is_nil negb orb]. now destruct d.
Qed.
Lemma dcs_back : forall l f acc, Forall dcon_ok l -> (length (concat (map enc_dcon l)) <= f)%nat -> zlen (concat (map enc_dcon l)) <= 134217724 -> zlen acc + zlen l <= 1024 ->
  parse_dcs c f (concat (map enc_dcon l)) acc = Good (acc ++ l).
Proof.
  induction l as [|d r IH]; intros f acc K L Z N; [rewrite app_nil_r; now destruct f|]. apply Forall_cons_iff in K as [K1 K2]. cbn [map concat] in *.
  assert (D : exists y z, enc_dcon d ++ concat (map enc_dcon r) = y :: z) by (unfold enc_dcon; apply enc_nonempty). destruct D as (y & z & Ey).
  rewrite zlen_cons in N. pose proof (zlen_nonneg _ r). rewrite zlen_app in Z. pose proof (zlen_nonneg _ (enc_dcon d)). pose proof (zlen_nonneg _ (concat (map enc_dcon r))).
  destruct f as [|f]; [rewrite Ey in L; cbn [length] in L; lia|]. rewrite Ey. cbn [parse_dcs]. rewrite <- Ey. unfold AGENT_MAX_DEST_CONSTRAINTS.
  replace (1024 <=? zlen acc) with false by lia. rewrite dcon_back by (try assumption; lia). cbn [bind]. rewrite IH; [now rewrite <- app_assoc|assumption| |lia|rewrite zlen_app; change (zlen [d]) with 1; lia].
  rewrite app_length in L. assert (1 <= length (enc_dcon d))%nat; [|lia]. destruct (enc_nonempty (enc_string (enc_hop (d_from d)) ++ enc_string (enc_hop (d_to d)) ++ enc_string []) []) as (y' & z' & E').
  rewrite app_nil_r in E'. unfold enc_dcon. rewrite E'. cbn [length]. lia.
Qed.
Lemma dest_back : forall en f k dcs, Forall dcon_ok dcs -> zlen (concat (map enc_dcon dcs)) <= 134217724 -> zlen dcs <= 1024 -> (length (enc_dest dcs) <= f)%nat ->
  parse_key_constraints c en f k (enc_dest dcs) no_cons = Good (mkKC 0 false 0 None dcs false []).
Proof.
  intros en f k dcs K Z N L. unfold enc_dest in *. destruct f as [|f]; [cbn [length] in L; lia|]. cbn [parse_key_constraints].
  rewrite get_u8_cons by lia. cbn [need bind]. change (255 =? 1) with false. change (255 =? 2) with false. change (255 =? 3) with false. change (255 =? 255) with true. cbv iota.
  unfold parse_key_constraint_extension. rewrite get_cstr_enc; [|apply Zle_bool_imp_le; vm_compute; reflexivity|cbn; intuition discriminate]. cbn [need bind].
  change (beqb (bs "restrict-destination-v00@openssh.com") (bs "sk-provider@openssh.com")) with false. change (beqb (bs "restrict-destination-v00@openssh.com") (bs "restrict-destination-v00@openssh.com")) with true. cbv iota.
  cbn [q_dcs no_cons is_nil negb]. rewrite <- (app_nil_r (enc_string _)). rewrite get_str_enc by assumption. cbn [need bind].
  rewrite dcs_back by (try assumption; try lia; rewrite zlen_nil; lia). cbn [bind app]. now destruct f.
Qed.
End Enc.
