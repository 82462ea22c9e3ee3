(** C33-C35: login restrictions. *)
From Coq Require Import String.
From Verif Require Import Base Text SshbufModel SshbufSpec WireSpec MiscNumModel MiscNumSpec AddrModel AddrSpec AddrProps PermitModel Dec AuthOptModel AuthOptSpec AuthOptProof AuthOptProof2 AuthOptProof3 CertSpec CertProof.

(** ** C33: merging *)
Theorem C33_rights : forall p a m r, sshauthopt_merge p a = Some m ->
  (granted r m -> granted r p /\ granted r a) /\ (bits p -> bits a -> (granted r m <-> granted r p /\ granted r a)) /\ bits m.
Proof.
  intros p a m r H. pose proof (merge_bits _ _ _ H) as B. destruct (merge_some _ _ _ H) as (F & _). unfold granted. rewrite F, and_one.
  split; [lia|]. split; [|assumption]. intros [Bp _] [Ba _]. specialize (Bp r). specialize (Ba r). unfold bit in *. lia.
Qed.
Print Assumptions C33_rights.
(** Commands: refused exactly if both sides force different ones; else either survives. *)
Theorem C33_command : forall p a,
  (sshauthopt_merge p a = None <-> exists x y, a_cmd p = Some x /\ a_cmd a = Some y /\ x <> y) /\
  (forall m c, sshauthopt_merge p a = Some m -> (a_cmd m = Some c <-> a_cmd p = Some c \/ a_cmd a = Some c)).
Proof. intros p a. split; [apply merge_none|]. intros m c. apply merge_cmd_iff. Qed.
Print Assumptions C33_command.
(** User verification is asked for if either side asks. *)
Theorem C33_verify : forall p a m, sshauthopt_merge p a = Some m -> (a_verify m = 1 <-> a_verify p = 1 \/ a_verify a = 1).
Proof. intros p a m H. destruct (merge_some _ _ _ H) as (_ & V & _). rewrite V. rewrite <- (or_one a_verify p a). unfold optflag_or, zb. destruct (_ || _); lia. Qed.
Print Assumptions C33_verify.
(** Expiry: the earliest, if the first side has one. *)
Theorem C33_expiry : forall p a m, sshauthopt_merge p a = Some m -> 0 <= a_expiry p -> 0 <= a_expiry a ->
  (a_expiry p <> 0 -> a_expiry m = earliest (a_expiry p) (a_expiry a)) /\ (a_expiry p = 0 -> a_expiry m = 0).
Proof.
  intros p a m H Hp Ha. destruct (merge_some _ _ _ H) as (_ & _ & E & _). rewrite E. unfold merge_expiry, earliest. split.
  - intros N. replace (a_expiry p =? 0) with false by lia. destruct (a_expiry a =? 0) eqn:E1; cbn [negb andb]; [reflexivity|]. destruct (a_expiry a <? a_expiry p) eqn:E2; lia.
  - intros ->. cbn. destruct (a_expiry a =? 0), (a_expiry a <? 0) eqn:E2; cbn; lia.
Qed.
Print Assumptions C33_expiry.
(** Finding: an expiry time of the second side alone is dropped. *)
Theorem C33_expiry_refuted : exists p a m, sshauthopt_merge p a = Some m /\ 0 < a_expiry a /\ a_expiry m = 0.
Proof. exists sshauthopt_new, (w_expiry 5 sshauthopt_new). eexists. split; [reflexivity|]. cbn. lia. Qed.
Print Assumptions C33_expiry_refuted.
(** Lists of destinations, source addresses, tunnel device: no restriction is lost
    altogether, and each list of the result is one side's. *)
Theorem C33_lists : forall p a m, sshauthopt_merge p a = Some m ->
  (a_open m = [] <-> a_open p = [] /\ a_open a = []) /\ (a_open m = a_open p \/ a_open m = a_open a) /\
  (a_listen m = [] <-> a_listen p = [] /\ a_listen a = []) /\ (a_listen m = a_listen p \/ a_listen m = a_listen a) /\
  (a_from_cert m = None <-> a_from_cert p = None /\ a_from_cert a = None) /\
  (a_from_keys m = None <-> a_from_keys p = None /\ a_from_keys a = None) /\
  (a_tun m = -1 <-> a_tun p = -1 /\ a_tun a = -1) /\ (a_env m = a_env p \/ a_env m = a_env a).
Proof.
  intros p a m H. destruct (merge_some _ _ _ H) as (_ & _ & _ & _ & T & E & O & L & C & K & _). rewrite T, E, O, L, C, K. unfold list_else, or_else.
  assert (Q : forall (x y : list (list Z)), (match x with _ :: _ => x | [] => y end = [] <-> x = [] /\ y = []) /\ (match x with _ :: _ => x | [] => y end = x \/ match x with _ :: _ => x | [] => y end = y)).
  { intros [|c x] y; split; auto; split; [auto|intros [_ ?]; auto|discriminate|intros [? _]; discriminate]. }
  assert (Q2 : forall (x y : option (list Z)), match x with Some _ => x | None => y end = None <-> x = None /\ y = None) by (intros [x|] y; split; [discriminate|intros [? _]; discriminate|auto|intros [_ ?]; auto]).
  destruct (Q (a_open p) (a_open a)), (Q (a_listen p) (a_listen a)). repeat (split; [first [assumption | apply Q2]|]).
  split; [destruct (a_tun p =? -1) eqn:Et; lia|]. now apply Q.
Qed.
Print Assumptions C33_lists.
(** Finding: destinations are not intersected; the first side's list replaces the
    second's. *)
Theorem C33_open_refuted : exists p a m d, sshauthopt_merge p a = Some m /\ In d (a_open m) /\ a_open a <> [] /\ ~ In d (a_open a).
Proof.
  exists (w_open [bs "a:1"] sshauthopt_new), (w_open [bs "b:1"] sshauthopt_new). eexists. exists (bs "a:1"). split; [reflexivity|]. split; [now left|]. split; [discriminate|]. intros [H|[]]. discriminate H.
Qed.
Print Assumptions C33_open_refuted.
(** Several activations during one login, in any number and order. *)
Theorem C33_login : forall l o m, login o l = Some m ->
  (forall r, granted r m -> granted r o /\ forall x, In x l -> granted r x) /\
  (forall c, a_cmd m = Some c <-> a_cmd o = Some c \/ exists x, In x l /\ a_cmd x = Some c) /\
  (bits o -> (exists x, (x = o \/ In x l) /\ a_verify x = 1) -> a_verify m = 1).
Proof.
  intros l o m H. split; [intros r; now apply login_grant|]. split; [intros c; now apply login_cmd|]. intros B. now apply login_verify.
Qed.
Print Assumptions C33_login.
(** Restricting the session (hostbased etc.) leaves only the terminal. *)
Theorem C33_restrict : forall o m r, auth_restrict_session o = Some m -> granted r m -> r = Pty /\ granted Pty o.
Proof.
  intros o m r H G. unfold auth_restrict_session, auth_activate_options in H. destruct (C33_rights _ _ _ r H) as (A & _). destruct (A G) as [G1 G2].
  destruct r; try (exfalso; apply G2; reflexivity). auto.
Qed.
Print Assumptions C33_restrict.
Example C33_ex : let k := w_cmd (Some (bs "x")) (w_expiry 9 sshauthopt_new_with_keys_defaults) in let c := w_pty 1 (w_x11 1 sshauthopt_new) in
  (exists m, sshauthopt_merge k c = Some m /\ a_pty m = 1 /\ a_port m = 0 /\ a_cmd m = Some (bs "x") /\ a_expiry m = 9) /\
  sshauthopt_merge k (w_cmd (Some (bs "y")) c) = None /\
  login sshauthopt_new_with_keys_defaults [k; c; w_cmd (Some (bs "x")) c] <> None.
Proof. split; [eexists; vm_compute; auto 10|]. split; [vm_compute; reflexivity|vm_compute; discriminate]. Qed.

(** ** C34: across the privilege boundary *)
Theorem C34_round_trip : forall o untrusted m0 m rest, storable o -> sshauthopt_serialise o untrusted m0 = Some m ->
  exists e, m = m0 ++ e /\ sshauthopt_deserialise (e ++ rest) = Some (if untrusted then censored o else o, rest).
Proof.
  intros o u m0 m rest S H. apply serialise_some in H. cbv zeta in H. destruct H as [-> F]. eexists. split; [reflexivity|]. apply des_opt; [|assumption].
  destruct u; [|assumption]. unfold storable, censored in *. cbn [a_port a_agent a_x11 a_pty a_rc a_restricted a_ca a_notouch a_verify a_expiry a_tun a_princ a_cmd a_from_cert a_from_keys a_env a_open a_listen ocstring].
  decompose [and] S. repeat (split; [first [assumption | lia | exact I | constructor | (unfold cstring; vm_compute; intuition discriminate)]|]). constructor.
Qed.
Print Assumptions C34_round_trip.
(** Everything the parsers and merging build can be stored. *)
Section Storable.
Variable serv ptime : list Z -> option Z.
Hypothesis times : forall t v, ptime t = Some v -> 0 <= v < 18446744073709551616.
Lemma value_in : forall v c, In c v -> In c (escape v).
Proof. induction v as [|x v IH]; intros c H; [destruct H|]. unfold escape. cbn [flat_map]. apply in_or_app. destruct H as [-> |H]; [left; destruct (c =? 34) eqn:E; cbn; [right; left; lia|now left]|right; now apply IH]. Qed.
Lemma valued_cstring : forall w v t, valued w v t -> ~ In 0 t -> cstring v.
Proof. intros w v t (_ & k & _ & ->) H K. apply H. apply in_or_app. right. right. right. apply in_or_app. left. now apply value_in. Qed.
Lemma effect_storable : forall i t o o', spelled i t -> ~ In 0 t -> effect serv ptime i o o' -> storable o -> storable o'.
Proof.
  intros i t o o' Sp N E S. destruct o as [f1 f2 f3 f4 f5 f6 f7 f8 f9 f10 f11 f12 f13 f14 f15 f16 f17 f18].
  unfold storable, byteflag in S. cbn [a_port a_agent a_x11 a_pty a_rc a_restricted a_ca a_notouch a_verify a_expiry a_tun a_princ a_cmd a_from_cert a_from_keys a_env a_open a_listen] in S.
  destruct S as (S1 & S2 & S3 & S4 & S5 & S6 & S7 & S8 & S9 & S10 & S11 & S12 & S13 & S14 & S15 & S16 & S17 & S18).
  assert (G : forall g1 g2 g3 g4 g5 g6 g7 g8 g9 g10 g11 g12 g13 g14 g15 g16 g17 g18, 0 <= g1 < 256 -> 0 <= g2 < 256 -> 0 <= g3 < 256 -> 0 <= g4 < 256 -> 0 <= g5 < 256 -> 0 <= g6 < 256 -> 0 <= g7 < 18446744073709551616 -> 0 <= g8 < 256 -> ocstring g9 -> -1 <= g10 <= 2147483647 -> ocstring g11 -> Forall cstring g12 -> Forall cstring g13 -> Forall cstring g14 -> ocstring g15 -> ocstring g16 -> 0 <= g17 < 256 -> 0 <= g18 < 256 ->
    storable (mkA g1 g2 g3 g4 g5 g6 g7 g8 g9 g10 g11 g12 g13 g14 g15 g16 g17 g18)).
  { intros. unfold storable, byteflag. cbn [a_port a_agent a_x11 a_pty a_rc a_restricted a_ca a_notouch a_verify a_expiry a_tun a_princ a_cmd a_from_cert a_from_keys a_env a_open a_listen]. auto 20. }
  destruct i as [| |f b|v|v|v|v|v|v|v|v|]; cbn [AuthOptSpec.effect spelled] in E, Sp; cbn [a_expiry a_env a_open a_listen a_cmd a_princ a_from_keys] in E.
  - subst o'. apply G; auto; lia.
  - subst o'. apply G; auto; lia.
  - subst o'. destruct f, b; cbn [set_flag w_port w_agent w_x11 w_notouch w_verify w_pty w_rc]; apply G; auto; lia.
  - destruct E as [_ ->]. apply G; auto. exact (valued_cstring _ _ _ Sp N).
  - destruct E as [_ ->]. apply G; auto. exact (valued_cstring _ _ _ Sp N).
  - destruct E as [_ ->]. apply G; auto. exact (valued_cstring _ _ _ Sp N).
  - destruct E as (x & Hx & _ & ->). apply times in Hx. apply G; auto. unfold earliest. destruct (f7 =? 0); [assumption|]. destruct (x =? 0); [assumption|]. lia.
  - destruct E as (_ & n & x & Ev & _ & [[_ ->]|[_ ->]]); apply G; auto. apply Forall_app. split; [assumption|]. constructor; [exact (valued_cstring _ _ _ Sp N)|constructor].
  - destruct E as (_ & _ & ->). apply G; auto. apply Forall_app. split; [assumption|]. constructor; [exact (valued_cstring _ _ _ Sp N)|constructor].
  - destruct E as (_ & w & Lw & _ & ->). apply G; auto. apply Forall_app. split; [assumption|]. constructor; [|constructor]. pose proof (valued_cstring _ _ _ Sp N) as C.
    destruct Lw as [[_ ->]|[_ ->]]; [assumption|]. intros K. destruct K as [K|[K|K]]; [discriminate|discriminate|contradiction].
  - destruct E as (n & Tn & ->). apply G; auto. destruct Tn as [[_ ->]|(_ & _ & Tn)]; lia.
  - subst. now apply G.
Qed.
Theorem C34_parsed : forall line o, ~ In 0 line -> sshauthopt_parse serv ptime (Some line) = Some o -> storable o.
Proof.
  intros line o N H. apply parse_iff in H as (its & tail & (ts & F & NE & -> & _) & E).
  assert (N' : forall t, In t ts -> ~ In 0 t).
  { intros t Ht K. apply N. apply in_or_app. left. clear - Ht K. induction ts as [|x ts IH]; [destruct Ht|]. destruct ts as [|y ts]; [destruct Ht as [-> |[]]; exact K|]. cbn [join]. apply in_or_app. destruct Ht as [-> |Ht]; [now left|right; right; auto]. }
  assert (S0 : storable sshauthopt_new_with_keys_defaults) by (unfold storable, byteflag; vm_compute; intuition (try discriminate; constructor)).
  clear N NE. revert N' E S0. generalize sshauthopt_new_with_keys_defaults as o0. induction F as [|i t its ts Si F IH]; intros o0 N' E S0.
  - cbn in E. now subst.
  - destruct E as (o1 & E1 & E2). apply (IH o1); [intros x Hx; apply N'; now right|assumption|]. apply (effect_storable i t o0 o1); auto. apply N'. now left.
Qed.
End Storable.
Print Assumptions C34_parsed.
Theorem C34_certificate : forall pton k c o, (forall s a, pton s = Some a -> wf a) -> k_cert k = Some c -> is_bytes (c_critical c) -> is_bytes (c_extensions c) ->
  sshauthopt_from_cert pton k = Some o -> storable o.
Proof.
  intros pton k c o Hp Ec B1 B2 H. apply from_cert_iff in H as (c0 & cr & ex & o1 & _ & _ & _ & _ & C1 & C2); [|assumption|intros c0 E0; assert (c0 = c) by congruence; subst; auto].
  assert (S0 : storable sshauthopt_new) by (unfold storable, byteflag; vm_compute; intuition (try discriminate; constructor)).
  assert (S1 : storable o1).
  { clear - C1 S0. revert C1 S0. generalize sshauthopt_new as o. induction cr as [|[n d] cr IH]; intros o C S; cbn [chain] in C; [now subst|]. destruct C as (o2 & C & C'). apply (IH _ C').
    clear - C S. destruct o as [f1 f2 f3 f4 f5 f6 f7 f8 f9 f10 f11 f12 f13 f14 f15 f16 f17 f18]. unfold storable, byteflag in *. decompose [and] S. clear S.
    destruct C as [(_ & _ & ->)|[(_ & _ & v & (N & _) & ->)|(_ & _ & v & (N & _) & _ & ->)]]; cbn [w_verify w_cmd w_from_cert a_port a_agent a_x11 a_pty a_rc a_restricted a_ca a_notouch a_verify a_expiry a_tun a_princ a_cmd a_from_cert a_from_keys a_env a_open a_listen ocstring] in *; repeat (split; [first [assumption|lia|exact N]|]); assumption. }
  clear - C2 S1. revert o1 C2 S1. induction ex as [|[n d] ex IH]; intros o1 C S; cbn [chain] in C; [now subst|]. destruct C as (o2 & C & C'). apply (IH _ C').
  clear - C S. destruct C as [(set & Hi & _ & ->)|[_ ->]]; [|assumption]. destruct o1 as [f1 f2 f3 f4 f5 f6 f7 f8 f9 f10 f11 f12 f13 f14 f15 f16 f17 f18]. unfold storable, byteflag in *. decompose [and] S. clear S.
  unfold ext_names in Hi. cbn [In] in Hi. destruct Hi as [Hi|[Hi|[Hi|[Hi|[Hi|[Hi|[]]]]]]]; injection Hi as _ <-; cbn [w_notouch w_x11 w_agent w_port w_pty w_rc a_port a_agent a_x11 a_pty a_rc a_restricted a_ca a_notouch a_verify a_expiry a_tun a_princ a_cmd a_from_cert a_from_keys a_env a_open a_listen ocstring] in *; repeat (split; [first [assumption|lia]|]); assumption.
Qed.
Print Assumptions C34_certificate.
Theorem C34_merged : forall p a m, storable p -> storable a -> sshauthopt_merge p a = Some m -> storable m.
Proof.
  intros p a m Sp Sa H. unfold sshauthopt_merge in H. destruct (merge_cmd p a) as [cmd|] eqn:Ec; [|discriminate]. injection H as <-. unfold storable, byteflag in *.
  cbn [a_port a_agent a_x11 a_pty a_rc a_restricted a_ca a_notouch a_verify a_expiry a_tun a_princ a_cmd a_from_cert a_from_keys a_env a_open a_listen ocstring].
  decompose [and] Sp. decompose [and] Sa. clear Sp Sa.
  assert (F : forall f, 0 <= optflag_and f p a < 256) by (intros f; unfold optflag_and, zb; destruct (_ && _); lia).
  assert (F' : forall f, 0 <= optflag_or f p a < 256) by (intros f; unfold optflag_or, zb; destruct (_ || _); lia).
  repeat (split; [first [apply F | apply F' | lia | exact I]|]).
  split. { unfold merge_expiry. destruct (a_expiry p =? 0); destruct (_ && _); lia. }
  split. { destruct (a_tun p =? -1); lia. }
  split; [exact I|]. split. { unfold merge_cmd in Ec. destruct (a_cmd p), (a_cmd a); try destruct (beqb _ _); try discriminate; injection Ec as <-; assumption || exact I. }
  split; [unfold or_else; destruct (a_from_cert p); assumption|]. split; [unfold or_else; destruct (a_from_keys p); assumption|].
  split; [unfold list_else; destruct (a_env p); assumption|]. split; [unfold list_else; destruct (a_open p); assumption|]. unfold list_else; destruct (a_listen p); assumption.
Qed.
Print Assumptions C34_merged.
Example C34_ex : let o := w_cmd (Some (bs "x y")) (w_tun 3 (w_expiry 9 (w_env [bs "A=1"; bs "B="] (w_open [bs "h:22"] (w_from_keys (Some (bs "10.*")) sshauthopt_new_with_keys_defaults))))) in
  storable o /\ (exists m, sshauthopt_serialise o false [7] = Some m /\ sshauthopt_deserialise (skipn 1 m ++ [8]) = Some (o, [8])) /\
  (exists m, sshauthopt_serialise o true [] = Some m /\ sshauthopt_deserialise m = Some (censored o, [])).
Proof.
  intros o. split; [unfold storable, byteflag; vm_compute; intuition (try discriminate); repeat constructor; vm_compute; intuition discriminate|].
  split; eexists; (split; [vm_compute; reflexivity|vm_compute; reflexivity]).
Qed.

(** ** C35: option lines *)
Section C35.
Variable serv ptime : list Z -> option Z.
Theorem C35_parse : forall line o, sshauthopt_parse serv ptime (Some line) = Some o <->
  exists its tail, reads line its tail /\ effects serv ptime its sshauthopt_new_with_keys_defaults o.
Proof. intros. apply parse_iff. Qed.
(** For each right the last option that mentions it decides. *)
Theorem C35_last_decides : forall line o its tail r, reads line its tail -> effects serv ptime its sshauthopt_new_with_keys_defaults o ->
  ((forall i, In i its -> says r i = None) /\ (granted r o <-> by_default r = true)) \/
  (exists a i b v, its = a ++ i :: b /\ says r i = Some v /\ (forall j, In j b -> says r j = None) /\ (granted r o <-> v = true)).
Proof.
  intros line o its tail r _ E. destruct (effects_flag serv ptime r its _ _ E) as [[N F]|(a & i & b & v & E1 & E2 & E3 & F)].
  - left. split; [assumption|]. unfold granted. rewrite F. destruct r; cbn; split; intros; try reflexivity; try discriminate; try lia.
  - right. exists a, i, b, v. split; [assumption|]. split; [assumption|]. split; [assumption|]. unfold granted. rewrite F. destruct v; split; intros; try reflexivity; try discriminate; lia.
Qed.
(** After "restrict", only what is enabled again. *)
Corollary C35_restrict : forall line o its tail r, reads line its tail -> effects serv ptime its sshauthopt_new_with_keys_defaults o ->
  r <> NoTouch -> granted r o -> forall a b, its = a ++ Restrict :: b -> exists i, In i b /\ says r i = Some true.
Proof.
  intros line o its tail r R E Nr G a b Eb. assert (Sr : says r Restrict = Some false) by (destruct r; try reflexivity; contradiction).
  destruct (C35_last_decides line o its tail r R E) as [[N _]|(x & i & y & v & E1 & E2 & E3 & F)].
  - rewrite (N Restrict) in Sr; [discriminate|]. rewrite Eb. apply in_or_app. right. now left.
  - apply F in G. subst v. rewrite E1 in Eb. apply app_eq_app in Eb as (z & [[P Q]|[P Q]]); destruct z as [|w z]; cbn in Q; injection Q as Q1 Q2.
    + subst i. congruence.
    + subst. exists i. split; [apply in_or_app; right; now left|assumption].
    + subst i. congruence.
    + subst. exfalso. assert (K : says r Restrict = None) by (apply E3; apply in_or_app; right; now left). congruence.
Qed.
(** The key starts where the options end. *)
Theorem C35_boundary : forall line its tail, reads line its tail -> sshkey_advance_past_options line = Some tail.
Proof. exact advance_reads. Qed.
End C35.
Print Assumptions C35_parse.
Print Assumptions C35_last_decides.
Print Assumptions C35_restrict.
Print Assumptions C35_boundary.
Example C35_ex : let p := sshauthopt_parse (fun _ => None) (fun t => if beqb t (bs "20300101") then Some 7 else None) in
  p (Some (bs "restrict,PTY,command=""say \""hi\"""",expiry-time=""20300101"" ssh-rsa x")) =
    Some (w_expiry 7 (w_cmd (Some (bs "say ""hi""")) (w_restricted 1 (w_pty 1 sshauthopt_new)))) /\
  reads (bs "restrict,PTY ssh") [Restrict; Flag FPty true] (bs " ssh") /\
  p (Some (bs "no-such")) = None /\ p (Some (bs "command=""x")) = None /\ p (Some (bs "no-command=""x""")) = None /\
  p (Some (bs "command=""x"",command=""y""")) = None /\ p (Some (bs "pty,")) = None.
Proof.
  intros p. split; [vm_compute; reflexivity|]. split; [|vm_compute; auto 10].
  exists [bs "restrict"; bs "PTY"]. split; [repeat constructor; reflexivity|]. split; [discriminate|]. split; [reflexivity|]. split; [right; eexists; eexists; split; [reflexivity|now left]|]. intros _ H. discriminate H.
Qed.
(** Finding: empty options between commas are skipped. *)
Theorem C35_empty_refuted : exists o, sshauthopt_parse (fun _ => None) (fun _ => None) (Some (bs "no-pty, x")) = Some o.
Proof. eexists. vm_compute. reflexivity. Qed.
Print Assumptions C35_empty_refuted.
