(** Properties C12 (CIDR matching), C13 (address lists), C14 (address arithmetic). *)
From Coq Require Import String.
From Verif Require Import Base Text Bits MatchModel MatchSpec MatchProof MatchProps MiscNumModel MiscNumSpec MiscNumProof AddrModel AddrSpec AddrProof.

Ltac wf_demo := split; [reflexivity|]; cbn [x_words]; repeat (constructor; [lia|]); constructor.

(** * C12 *)

(** A mask of length l has exactly its leading l bits set; there is none longer
    than the address. *)
Theorem C12_masks : forall af l, 0 <= l ->
  match addr_netmask af l with
  | Some m => l <= width af /\ x_af m = af /\ wf m /\ forall i, 0 <= i < width af -> Z.testbit (value m) i = (width af - l <=? i)
  | None => width af < l
  end.
Proof.
  intros af l Hl. destruct (Z_le_gt_dec l (width af)).
  - destruct (netmask_value af l) as (m & -> & Ha & Hw & Hv); [lia|]. splits; auto. intros i Hi. rewrite Hv.
    replace (2 ^ width af - 2 ^ (width af - l)) with ((2 ^ l - 1) * 2 ^ (width af - l) + 0).
    2:{ rewrite Z.mul_sub_distr_r, <- Z.pow_add_r by lia. replace (l + (width af - l)) with (width af) by lia. lia. }
    rewrite cat_bits by (solve [lia | split; [lia|apply Z.pow_pos_nonneg; lia]]).
    destruct (i <? width af - l) eqn:E; [rewrite Z.bits_0; lia|].
    replace (2 ^ l - 1) with (Z.ones l) by (rewrite Z.ones_equiv; lia). rewrite Z.testbit_ones by lia. lia.
  - rewrite netmask_none by lia. lia.
Qed.
Print Assumptions C12_masks.

(** Matching is prefix equality (with equal interface scope for IPv6), for every
    host and every network without host bits. *)
Theorem C12_prefix : forall host net l, wf host -> wf net -> 0 <= l -> host_bits net l = 0 ->
  (addr_netmatch host net l = 0 <->
   x_af host = x_af net /\ l <= width (x_af net) /\ leading host l = leading net l /\ same_scope host net).
Proof.
  intros host net l Hh Hn Hl Hz. destruct (Z_le_gt_dec l (width (x_af net))).
  - rewrite (netmatch_iff host net l Hh Hn Hl) by (split; assumption). unfold in_network. tauto.
  - split; [intros H; apply netmatch_long in H; [destruct H|lia]|]. intros (_ & H & _). lia.
Qed.
Print Assumptions C12_prefix.

(** The scope is really compared: a link-local address with a scope is outside
    every unscoped network, even /0. *)
Theorem C12_scope_refuted : exists host net, wf host /\ wf net /\ x_af host = x_af net /\ host_bits net 10 = 0 /\
  leading host 10 = leading net 10 /\ addr_netmatch host net 10 <> 0.
Proof.
  exists (mkX INET6 [4269801472; 0; 0; 1] 2), (mkX INET6 [4269801472; 0; 0; 0] 0).
  split; [wf_demo|]. split; [wf_demo|]. splits; vm_compute; (reflexivity || discriminate).
Qed.
Print Assumptions C12_scope_refuted.

(** Reading an entry: refused (-2) exactly when it reads as address and length
    but has too many bits or host bits set. *)
Theorem C12_entry : forall pton p, (forall s a, pton s = Some a -> wf a) ->
  match addr_pton_cidr pton p with
  | CidrOk a l => reads pton p a l /\ l <= width (x_af a) /\ host_bits a l = 0
  | CidrInconsistent => exists a l, reads pton p a l /\ (l > width (x_af a) \/ host_bits a l <> 0)
  | CidrParse => forall a l, ~ reads pton p a l
  end.
Proof.
  intros pton p Hp. pose proof (cidr_spec pton p Hp) as C. destruct (addr_pton_cidr pton p); [|exact C|].
  - destruct C as (A & [B C] & _). auto.
  - destruct C as (a & l & A & B). exists a, l. split; [assumption|]. unfold consistent in B.
    destruct (Z_le_gt_dec l (width (x_af a))); [right; tauto|auto].
Qed.
Print Assumptions C12_entry.

Definition demo_pton (s : list Z) : option xaddr :=
  if beqb s (bs "10.1.0.0") then Some (mkX INET [167837696; 0; 0; 0] 0)
  else if beqb s (bs "10.1.2.3") then Some (mkX INET [167838211; 0; 0; 0] 0)
  else if beqb s (bs "fe80::") then Some (mkX INET6 [4269801472; 0; 0; 0] 0)
  else None.
Lemma demo_pton_ok : pton_ok demo_pton.
Proof.
  intros s a H. unfold demo_pton in H.
  repeat match type of H with (if ?b then _ else _) = _ => destruct b end; inversion H; subst; wf_demo.
Qed.
Example C12_demo :
  addr_pton_cidr demo_pton (bs "10.1.0.0/16") = CidrOk (mkX INET [167837696; 0; 0; 0] 0) 16 /\
  addr_pton_cidr demo_pton (bs "10.1.2.3/16") = CidrInconsistent /\
  addr_pton_cidr demo_pton (bs "10.1.0.0/33") = CidrInconsistent /\
  addr_netmatch (mkX INET [167838211; 0; 0; 0] 0) (mkX INET [167837696; 0; 0; 0] 0) 16 = 0 /\
  addr_netmatch (mkX INET [167838211; 0; 0; 0] 0) (mkX INET [167837696; 0; 0; 0] 0) 24 <> 0.
Proof. splits; vm_compute; (reflexivity || discriminate). Qed.

(** * C13 *)

(** The four results of matching a parseable address, exactly. *)
Theorem C13_list : forall pton t x l, (forall s a, pton s = Some a -> wf a) -> pton t = Some x ->
  let es := split 44 l in let v := addr_match_list pton (Some t) l in
  (v = 1 <-> (forall e, In e es -> ~ invalid_entry pton e) /\
             (forall e, In e es -> negative e = true -> ~ entry_matches pton t x e) /\
             (exists e, In e es /\ negative e = false /\ entry_matches pton t x e)) /\
  (v = -1 <-> exists pre e post, es = pre ++ e :: post /\ negative e = true /\ entry_matches pton t x e /\
              forall d, In d (pre ++ [e]) -> ~ invalid_entry pton d) /\
  (v = -2 <-> exists pre e post, es = pre ++ e :: post /\ invalid_entry pton e /\
              forall d, In d pre -> negative d = true -> ~ entry_matches pton t x d) /\
  (v = 1 \/ v = 0 \/ v = -1 \/ v = -2).
Proof.
  intros pton t x l Hp Ht es v. unfold v, addr_match_list. rewrite Ht. unfold COMMA. fold es.
  destruct (aml_values pton t x es 0 Hp (Hp _ _ Ht) ltac:(auto)) as (A & B & C & D). splits; auto.
  - rewrite A, Forall_forall. split.
    + intros (F & G & [K|K]); [lia|]. auto.
    + intros (F & G & K). auto.
  - rewrite B. split; intros (pre & e & post & H1 & H2 & H3 & H4); exists pre, e, post; rewrite Forall_forall in *; auto.
Qed.
Print Assumptions C13_list.

(** In particular a match means: some entry matches and no negated entry does; and
    a list with an invalid entry never matches. *)
Theorem C13_match_means : forall pton t l, (forall s a, pton s = Some a -> wf a) -> addr_match_list pton (Some t) l = 1 ->
  exists x, pton t = Some x /\
  (exists e, In e (split 44 l) /\ negative e = false /\ entry_matches pton t x e) /\
  (forall e, In e (split 44 l) -> ~ invalid_entry pton e /\ (negative e = true -> ~ entry_matches pton t x e)).
Proof.
  intros pton t l Hp H. destruct (pton t) as [x|] eqn:Et.
  - exists x. destruct (C13_list pton t x l Hp Et) as (A & _). apply A in H. destruct H as (F & G & K). splits; auto.
  - unfold addr_match_list in H. rewrite Et in H. lia.
Qed.
Print Assumptions C13_match_means.

(** Checking a list without an address: -2 exactly for lists with an invalid entry. *)
Theorem C13_check : forall pton l, (forall s a, pton s = Some a -> wf a) ->
  (addr_match_list pton None l = -2 <-> exists e, In e (split 44 l) /\ invalid_entry pton e) /\
  (addr_match_list pton None l = 0 <-> forall e, In e (split 44 l) -> ~ invalid_entry pton e).
Proof.
  intros pton l Hp. unfold addr_match_list, COMMA. destruct (aml_null pton (split 44 l) Hp) as [A B]. rewrite A, B, Exists_exists, Forall_forall. split; reflexivity.
Qed.
Print Assumptions C13_check.

(** Not every invalid list is reported: an address text that does not parse makes
    the result 0 whatever the list. *)
Theorem C13_unparsed_address_refuted : exists pton t l, (forall s a, pton s = Some a -> wf a) /\
  (exists e, In e (split 44 l) /\ invalid_entry pton e) /\ addr_match_list pton (Some t) l = 0.
Proof.
  exists demo_pton, (bs "x"), (bs "a,,b"). splits; [exact demo_pton_ok| |vm_compute; reflexivity].
  exists []. split; [vm_compute; auto|now left].
Qed.
Print Assumptions C13_unparsed_address_refuted.

(** CIDR-only lists, when every entry has only the permitted characters: a bad
    entry anywhere is an error, otherwise the result tells whether one matches. *)
Theorem C13_cidr_list : forall pton t x l, (forall s a, pton s = Some a -> wf a) -> pton t = Some x ->
  (forall e, In e (split 44 l) -> forall c, In c e -> In c (bs "0123456789abcdefABCDEF.:/")) ->
  let v := addr_match_cidr_list pton (Some t) l in
  let good e := e <> [] /\ zlen e <= 49 /\ exists a m, reads pton e a m /\ consistent a m in
  let hit e := exists a m, reads pton e a m /\ consistent a m /\ in_network x a m in
  (v = -1 <-> ~ Forall good (split 44 l)) /\
  (v = 1 <-> Forall good (split 44 l) /\ Exists hit (split 44 l)) /\
  (v = 1 \/ v = 0 \/ v = -1).
Proof.
  intros pton t x l Hp Ht Hc v good hit. unfold v, addr_match_cidr_list. rewrite Ht. unfold COMMA.
  assert (V : Forall (fun e => valid_chars e = true) (split 44 l)).
  { apply Forall_forall. intros e He. unfold valid_chars. apply forallb_forall. intros c Hi. apply existsb_exists. exists c. split; [|apply Z.eqb_refl]. exact (Hc e He c Hi). }
  destruct (acl_values pton x (split 44 l) 0 Hp (Hp _ _ Ht) ltac:(auto) V) as (A & B & C). splits; auto.
  rewrite B. split; intros [F K]; (split; [assumption|]); [destruct K as [K|K]; [lia|assumption]|auto].
Qed.
Print Assumptions C13_cidr_list.

(** With other characters an entry is reported as an error but still used: a
    matching entry overrides the error, so the list is accepted. *)
Theorem C13_cidr_characters_refuted : exists pton t l, (forall s a, pton s = Some a -> wf a) /\
  (exists e c, In e (split 44 l) /\ In c e /\ ~ In c (bs "0123456789abcdefABCDEF.:/")) /\
  addr_match_cidr_list pton (Some t) l = 1.
Proof.
  exists demo_pton, (bs "10.1.2.3"), (bs "10.1.0.0/+16"). splits; [exact demo_pton_ok| |vm_compute; reflexivity].
  exists (bs "10.1.0.0/+16"), 43. splits; [vm_compute; auto|vm_compute; tauto|]. intros H. vm_compute in H. repeat (destruct H as [H|H]; [discriminate H|]). exact H.
Qed.
Print Assumptions C13_cidr_characters_refuted.

(** match_host_and_ip (used for from= options and AllowUsers): it accepts exactly
    when the list is valid for addresses, nothing negated covers the address or
    the host name, and something else covers one of them. *)
Theorem C13_host_and_ip : forall pton h t x l, (forall s a, pton s = Some a -> wf a) -> pton t = Some x ->
  Forall fits (entries l) ->
  let ip e := entry_matches pton t x e in
  let es := split 44 l in
  (match_host_and_ip pton (Some h) (Some t) l = Some 1 <->
   (forall e, In e es -> ~ invalid_entry pton e) /\
   (forall e, In e es -> negative e = true -> ~ ip e) /\ ~ some_negative true (map tolower h) (entries l) /\
   ((exists e, In e es /\ negative e = false /\ ip e) \/ some_positive true (map tolower h) (entries l))) /\
  (match_host_and_ip pton (Some h) (Some t) l = Some (-1) <->
   exists pre e post, es = pre ++ e :: post /\ invalid_entry pton e /\ forall d, In d pre -> negative d = true -> ~ ip d).
Proof.
  intros pton h t x l Hp Ht Hf ip es. destruct (C13_list pton t x l Hp Ht) as (A & B & C & D). fold es in A, B, C. unfold match_host_and_ip.
  set (v := addr_match_list pton (Some t) l) in *.
  destruct (C11_list (map tolower h) l true Hf) as (N & P & Z0). fold (match_hostname h l) in N, P, Z0.
  assert (HM : exists m, match_hostname h l = Some m /\ (m = -1 \/ m = 0 \/ m = 1)) by apply C11_total.
  destruct HM as (m & Em & Hm). rewrite Em in *.
  assert (V0 : v = 0 -> (forall e, In e es -> ~ invalid_entry pton e) /\ (forall e, In e es -> ~ ip e)).
  { intros E. assert (N2 : v <> -2) by lia. rewrite C in N2. assert (N1 : v <> -1) by lia. rewrite B in N1. assert (N0 : v <> 1) by lia. rewrite A in N0.
    unfold ip. unfold v, addr_match_list in E. rewrite Ht in E. unfold COMMA in E. fold es in E. clear - E Hp Ht.
    assert (G : forall es ret, (ret = 0 \/ ret = 1) -> aml_loop pton es (Some (t, x)) ret = 0 -> (forall e, In e es -> ~ invalid_entry pton e) /\ (forall e, In e es -> ~ entry_matches pton t x e) /\ ret = 0).
    { clear E es. induction es as [|e r IH]; intros ret Hr E; [cbn in E; splits; auto; intros e []|].
      destruct (entry_step pton t x e r ret Hp (Hp _ _ Ht)) as [(I & H)|[(I & M & Ne & H)|[(I & M & Ne & H)|(I & M & H)]]]; rewrite H in E; try lia.
      - destruct (IH 1 ltac:(auto) E) as (_ & _ & K). lia.
      - destruct (IH ret Hr E) as (K1 & K2 & K3). splits; auto; intros d [<-|Hd]; auto. }
    destruct (G es 0 ltac:(auto) E) as (G1 & G2 & _). auto. }
  assert (S1 : forall a b : Z, Some a = Some b <-> a = b) by (intros; split; congruence).
  destruct (v =? -2) eqn:E2.
  { assert (v = -2) by lia. split.
    - split; [intros K; inversion K|]. intros (F & _). apply C in H. destruct H as (pre & e & post & He & Hi & _). exfalso. apply (F e); [rewrite He; apply in_or_app; right; now left|assumption].
    - split; [intros _; now apply C|reflexivity]. }
  assert (NC : ~ exists pre e post, es = pre ++ e :: post /\ invalid_entry pton e /\ forall d, In d pre -> negative d = true -> ~ entry_matches pton t x d) by (rewrite <- C; lia).
  destruct (v =? -1) eqn:E1.
  { assert (v = -1) by lia. split; [|split; [discriminate|intros K; destruct (NC K)]].
    split; [discriminate|]. intros (_ & F & _). apply B in H. destruct H as (pre & e & post & He & Hn & Hi & _). exfalso. apply (F e); [rewrite He; apply in_or_app; right; now left|assumption|assumption]. }
  split; [|destruct (m =? -1); [|destruct (_ && _)]; (split; [discriminate|intros K; destruct (NC K)])].
  rewrite S1 in N, P, Z0. destruct (m =? -1) eqn:M1.
  { split; [discriminate|]. intros (_ & _ & F & _). exfalso. apply F, N. lia. }
  assert (NN : ~ some_negative true (map tolower h) (entries l)) by (rewrite <- N; lia).
  destruct D as [D|[D|D]]; [| |lia].
  - apply A in D as D'. destruct D' as (F & G & K). replace ((m =? 0) && (v =? 0)) with false by lia. split; [|reflexivity]. intros _. auto.
  - destruct (V0 D) as (V1 & V2). replace (v =? 0) with true by lia. rewrite Bool.andb_true_r. destruct (m =? 0) eqn:M0.
    + split; [discriminate|]. intros (_ & _ & _ & [(e & He & _ & Hi)|K]); [destruct (V2 e He Hi)|]. assert (m = 1) by (apply P; auto). lia.
    + split; [|reflexivity]. intros _. splits; auto. right. assert (m = 1) as M by lia. apply P in M. tauto.
Qed.
Print Assumptions C13_host_and_ip.

(** match_user: USER or USER@HOSTLIST, split at the last '@'. *)
Theorem C13_user : forall pton u h ip p,
  (~ In 64 p -> match_user pton u h ip p = Some 1 <-> glob p u) /\
  (forall a b, p = a ++ 64 :: b -> ~ In 64 b ->
     (match_user pton u h ip p = Some 1 <-> glob a u /\ match_host_and_ip pton h ip b = Some 1)).
Proof.
  intros pton u h ip p.
  assert (R : forall s, match strrchr_cut 64 s with None => ~ In 64 s | Some (a, b) => s = a ++ 64 :: b /\ ~ In 64 b end).
  { induction s as [|c s IH]; cbn [strrchr_cut]; [intros []|]. destruct (strrchr_cut 64 s) as [[a b]|].
    - destruct IH as [-> IH]. split; [reflexivity|assumption].
    - destruct (c =? 64) eqn:E; [assert (c = 64) by lia; subst; auto|]. intros [H|H]; [lia|auto]. }
  assert (U : forall a b a' b' : list Z, a ++ 64 :: b = a' ++ 64 :: b' -> ~ In 64 b -> ~ In 64 b' -> a = a' /\ b = b').
  { induction a as [|c a IH]; intros b [|c' a'] b' H Hb Hb'; cbn [app] in H.
    - inversion H. auto.
    - inversion H; subst. exfalso. apply Hb. apply in_or_app. right. now left.
    - inversion H; subst. exfalso. apply Hb'. apply in_or_app. right. now left.
    - inversion H; subst. destruct (IH b a' b') as [-> ->]; auto. }
  unfold match_user. specialize (R p). destruct (strrchr_cut 64 p) as [[a b]|].
  - destruct R as [-> Hb]. split; [intros H; exfalso; apply H; apply in_or_app; right; now left|].
    intros a' b' E Hb'. destruct (U _ _ _ _ E Hb Hb') as [<- <-]. rewrite <- match_pattern_glob. destruct (match_pattern u a); [tauto|]. split; [discriminate|]. intros [H _]. discriminate.
  - split.
    + intros _. rewrite <- match_pattern_glob. destruct (match_pattern u p); split; congruence.
    + intros a b -> _. exfalso. apply R. apply in_or_app. right. now left.
Qed.
Print Assumptions C13_user.

Example C13_demo :
  addr_match_list demo_pton (Some (bs "10.1.2.3")) (bs "10.1.0.0/16,!10.1.2.*") = -1 /\
  addr_match_list demo_pton (Some (bs "10.1.2.3")) (bs "!10.2.*,10.1.0.0/16") = 1 /\
  addr_match_list demo_pton (Some (bs "10.1.2.3")) (bs "10.1.0.0/16,10.1.2.3/16") = -2 /\
  match_host_and_ip demo_pton (Some (bs "Bad.example")) (Some (bs "10.1.2.3")) (bs "10.1.0.0/16,!bad.*") = Some 0 /\
  match_user demo_pton (bs "al") (Some (bs "h")) (Some (bs "10.1.2.3")) (bs "a*@10.1.0.0/16") = Some 1.
Proof. splits; vm_compute; reflexivity. Qed.

(** * C14 *)

(** AND, OR, NOT act on the address as an integer. *)
Theorem C14_bitwise : forall a b, wf a -> wf b -> x_af a = x_af b ->
  (exists r, addr_and a b = Some r /\ x_af r = x_af a /\ value r = Z.land (value a) (value b)) /\
  (exists r, addr_or a b = Some r /\ x_af r = x_af a /\ value r = Z.lor (value a) (value b)) /\
  (x_af (addr_invert a) = x_af a /\ value (addr_invert a) = 2 ^ width (x_af a) - 1 - value a).
Proof.
  intros a b Ha Hb E. split; [|split].
  - destruct (and_value a b Ha Hb E) as (r & H1 & H2 & H3 & H4 & H5). exists r. auto.
  - destruct (or_value a b Ha Hb E) as (r & H1 & H2 & H3 & H4 & H5). exists r. auto.
  - destruct (invert_value a Ha) as (H1 & H2 & H3). auto.
Qed.
Print Assumptions C14_bitwise.
(** Operations on addresses of different families fail. *)
Theorem C14_families : forall a b, x_af a <> x_af b -> addr_and a b = None /\ addr_or a b = None /\ addr_cmp a b <> 0.
Proof.
  intros a b H. unfold addr_and, addr_or, addr_cmp. destruct (fam_eqb (x_af a) (x_af b)) eqn:E; [apply fam_eqb_eq in E; congruence|].
  cbn [negb]. splits; auto. destruct (x_af a); discriminate.
Qed.
Print Assumptions C14_families.
(** Host masks are the complement: setting all host bits. *)
Theorem C14_last_address : forall a l, wf a -> 0 <= l <= width (x_af a) ->
  exists e, addr_host_to_all1s a l = Some e /\ wf e /\ x_af e = x_af a /\ leading e l = leading a l /\
    host_bits e l = 2 ^ (width (x_af a) - l) - 1.
Proof.
  intros a l Ha Hl. destruct (host_all1s a l Ha Hl) as (e & H1 & H2 & H3 & H4 & H5). exists e. splits; auto; unfold leading, host_bits; rewrite H3, H5.
  - assert (0 < 2 ^ (width (x_af a) - l)) by (apply Z.pow_pos_nonneg; lia). rewrite Z.div_add_l by lia. rewrite (Z.div_small (2 ^ (width (x_af a) - l) - 1)) by lia. unfold leading. lia.
  - assert (0 < 2 ^ (width (x_af a) - l)) by (apply Z.pow_pos_nonneg; lia). rewrite Z.add_comm, Z.mod_add by lia. apply Z.mod_small. lia.
Qed.
Print Assumptions C14_last_address.
(** Incrementing adds one modulo the address space. *)
Theorem C14_increment : forall a, wf a -> let b := addr_increment a in
  wf b /\ x_af b = x_af a /\ x_scope b = x_scope a /\ value b = (value a + 1) mod 2 ^ width (x_af a).
Proof. exact increment_value. Qed.
Print Assumptions C14_increment.
(** Comparison is the integer order (then the scope order, for IPv6). *)
Theorem C14_order : forall a b, wf a -> wf b -> x_af a = x_af b ->
  let lt x y := value x < value y \/ value x = value y /\ x_af x = INET6 /\ x_scope x < x_scope y in
  (addr_cmp a b < 0 <-> lt a b) /\ (addr_cmp a b > 0 <-> lt b a) /\
  (addr_cmp a b = 0 <-> value a = value b /\ same_scope a b).
Proof.
  intros a b Ha Hb E lt. pose proof (cmp_sign a b Ha Hb E) as S. unfold lt, same_scope.
  assert (SN : forall z, Z.sgn z = -1 <-> z < 0) by (intros; split; [apply Z.sgn_neg_iff|apply Z.sgn_neg_iff]).
  assert (SP : forall z, Z.sgn z = 1 <-> z > 0) by (intros z; rewrite Z.sgn_pos_iff; lia).
  assert (SZ : forall z, Z.sgn z = 0 <-> z = 0) by (intros; apply Z.sgn_null_iff).
  rewrite <- SN, <- SP, <- SZ, S. unfold cmp_scope. rewrite E.
  destruct (value a =? value b) eqn:V; rewrite SN, SP, SZ; destruct (x_af b); splits; split; intros H; try lia; try (right; split; [lia|split; [reflexivity|lia]]); try (split; [lia|intros; try discriminate; lia]).
  - destruct H as [H|(_ & H & _)]; [lia|discriminate].
  - destruct H as [H|(_ & H & _)]; [lia|discriminate].
  - destruct H as [_ H]. specialize (H eq_refl). lia.
Qed.
Print Assumptions C14_order.
(** Expanding a range visits every address of the network, once, in order. *)
Theorem C14_range : forall pton fuel host a l, (forall s a, pton s = Some a -> wf a) ->
  addr_pton_cidr pton host = CidrOk a l -> 2 ^ (width (x_af a) - l) <= Z.of_nat fuel ->
  exists visited, do_host pton fuel host = Some visited /\ NoDup (map value visited) /\
    Forall (fun x => x_af x = x_af a /\ x_scope x = x_scope a) visited /\
    (forall v, In v (map value visited) <-> 0 <= v < 2 ^ width (x_af a) /\ v / 2 ^ (width (x_af a) - l) = leading a l) /\
    (forall i, (i < length visited)%nat -> nth i (map value visited) 0 = value a + Z.of_nat i).
Proof.
  intros pton fuel host a l Hp E Hf. pose proof (cidr_spec pton host Hp) as C. rewrite E in C. destruct C as (_ & [Hl Hz] & Ha & H0).
  unfold do_host. rewrite E. destruct (host_all1s a l Ha ltac:(lia)) as (e & -> & We & Ae & Se & Ve).
  set (P := 2 ^ (width (x_af a) - l)) in *. assert (HP : 0 < P) by (apply Z.pow_pos_nonneg; lia).
  assert (Va : value a = leading a l * P). { unfold host_bits in Hz. fold P in Hz. unfold leading. fold P. rewrite (Z.div_mod (value a) P) at 1 by lia. lia. }
  destruct (expand_spec (Z.to_nat (P - 1)) fuel a e) as (vis & -> & Hv & Fv); try assumption; try congruence; try lia.
  replace (S (Z.to_nat (P - 1))) with (Z.to_nat P) in Hv by lia.
  exists vis. rewrite Hv. splits; auto.
  - apply zrange_nodup.
  - eapply Forall_impl; [|exact Fv]. cbn. tauto.
  - intros v. rewrite zrange_in. rewrite Z2Nat.id by lia. rewrite Va. pose proof (value_bound e We) as Be. pose proof (value_bound a Ha). rewrite Ae in Be. split.
    + intros Hv0. split; [lia|]. symmetry. apply (Z.div_unique v P (leading a l) (v - leading a l * P)); lia.
    + intros [_ <-]. pose proof (Z.div_mod v P ltac:(lia)). pose proof (Z.mod_pos_bound v P HP). lia.
  - intros i Hi. assert (Ln : length vis = Z.to_nat P). { rewrite <- (map_length value), Hv. unfold zrange. now rewrite map_length, seq_length. }
    unfold zrange. rewrite (nth_indep _ 0 ((fun i => value a + Z.of_nat i) 0%nat)) by (rewrite map_length, seq_length; lia).
    rewrite (map_nth (fun i => value a + Z.of_nat i)), seq_nth by lia. reflexivity.
Qed.
Print Assumptions C14_range.

Example C14_demo : value (addr_increment (mkX INET6 [1; 4294967295; 4294967295; 4294967295] 0)) = 2 * 2 ^ 96 /\
  option_map (map (fun x => hd 0 (x_words x))) (do_host demo_pton 10 (bs "10.1.0.0/30")) = Some [167837696; 167837697; 167837698; 167837699].
Proof. splits; vm_compute; reflexivity. Qed.
