(** Proofs for ServProps: what a directive sets. *)
From Coq Require Import String.
From Verif Require Import Base Text MatchModel MiscNumModel ArgvModel AddrModel ServModel ServSpec.
Local Open Scope Z_scope.

Lemma strcaseeq_iff : forall a b, strcaseeq a b = true <-> map tolower a = map tolower b.
Proof. intros. unfold strcaseeq. apply beqb_eq. Qed.
Lemma find_keyword_lower : forall t k k', map tolower k = map tolower k' -> find_keyword t k = find_keyword t k'.
Proof.
  induction t as [|[[n o] m] t IH]; intros k k' H; cbn [find_keyword]; [reflexivity|].
  unfold strcaseeq. rewrite H. destruct (beqb (map tolower k') (map tolower n)); [reflexivity|]. now apply IH.
Qed.
Lemma find_keyword_in : forall t k p m, find_keyword t k = Some (p, m) -> exists n, In (n, p, m) t /\ map tolower k = map tolower n.
Proof.
  induction t as [|[[n o] b] t IH]; intros k p m H; cbn [find_keyword] in H; [discriminate|].
  destruct (strcaseeq k n) eqn:Q.
  - injection H as <- <-. exists n. split; [now left|now apply strcaseeq_iff].
  - destruct (IH _ _ _ H) as (x & A & B). exists x. split; [now right|exact B].
Qed.
Lemma state_value_iff : forall t w v, NoDup (map (fun x => map tolower (fst x)) t) ->
  (state_value t w = Some v <-> exists k, In (k, v) t /\ map tolower w = map tolower k).
Proof.
  induction t as [|[k x] t IH]; intros w v N; cbn [state_value].
  - split; [discriminate|intros (? & [] & _)].
  - inversion N as [|? ? N1 N2]; subst. destruct (strcaseeq w k) eqn:Q.
    + apply strcaseeq_iff in Q. split.
      * intros [= <-]. exists k. split; [now left|exact Q].
      * intros (k' & [A|A] & B); [congruence|]. exfalso. apply N1. cbn [fst]. apply in_map_iff. exists (k', v). split; [cbn [fst]; congruence|exact A].
    + rewrite (IH w v N2). split; intros (k' & A & B).
      * exists k'. split; [now right|exact B].
      * destruct A as [A|A]; [|exists k'; auto]. injection A as <- <-. exfalso. apply strcaseeq_iff in B. congruence.
Qed.
Lemma exact_value_iff : forall t w v, NoDup (map fst t) -> (exact_value t w = Some v <-> In (w, v) t).
Proof.
  induction t as [|[k x] t IH]; intros w v N; cbn [exact_value].
  - split; [discriminate|intros []].
  - inversion N as [|? ? N1 N2]; subst. destruct (beqb w k) eqn:Q.
    + apply beqb_eq in Q. subst k. split; [intros [= <-]; now left|]. intros [A|A]; [congruence|]. exfalso. apply N1. apply in_map_iff. now exists (w, v).
    + apply beqb_neq in Q. rewrite (IH w v N2). split; [intros A; now right|]. intros [A|A]; [congruence|exact A].
Qed.

(** Taking in a file *)
Definition after (l : list Z) (r : list (list Z)) : list Z := match r with [] => [] | _ => (if existsb (Z.eqb 0) l then [] else [10]) ++ taken_in r end.
Lemma taken_cons : forall l r, taken_in (l :: r) = lead (visible l) ++ after l r.
Proof. intros l [|x r]; cbn [taken_in after]; [now rewrite app_nil_r|reflexivity]. Qed.
Lemma load_all : forall s, exists f fs, split 10 s = f :: fs /\ load true false s = taken_in (f :: fs) /\ load false false s = visible f ++ after f fs /\
  load false true s = taken_in fs.
Proof.
  induction s as [|c s (f & fs & E & I1 & I2 & I3)]; [exists [], []; repeat split|]. cbn [split load].
  destruct (c =? 10) eqn:C10.
  - rewrite E. exists [], (f :: fs). rewrite I1. rewrite !taken_cons. cbn [visible lead after existsb app]. rewrite taken_cons. repeat split.
  - rewrite E. exists (c :: f), fs. rewrite !taken_cons in *. split; [reflexivity|]. cbn [visible andb].
    assert (A : c <> 0 -> after (c :: f) fs = after f fs) by (intros N; unfold after; destruct fs; [reflexivity|]; cbn [existsb]; now replace (0 =? c) with false by lia).
    assert (Z0 : after (0 :: f) fs = taken_in fs) by (unfold after; destruct fs; reflexivity).
    destruct (c =? 0) eqn:C0.
    + assert (c = 0) by lia. subst c. cbn [lead app]. rewrite Z0, I3. repeat split.
    + cbn [lead]. rewrite A by lia. destruct ((c =? 32) || (c =? 9) || (c =? 13)); rewrite ?I1, ?I2; repeat split; exact I3.
Qed.
Lemma load_taken : forall s, load true false s = taken_in (split 10 s).
Proof. intros s. destruct (load_all s) as (f & fs & -> & H & _). exact H. Qed.

(** What an operation sets, in terms of the model's table. *)
Section Ops.
Variable E : env.
Definition op_int (p : op) (ws : list (list Z)) (i : iopt) (v : Z) : Prop :=
  match p with
  | OMulti j t => i = j /\ exists w, ws = [w] /\ state_value t w = Some v
  | OTime j => i = j /\ exists w, ws = [w] /\ convtime w = v /\ v <> -1
  | ONum j => i = j /\ exists w, ws = [w] /\ atoi_err w = Some v
  | OPubkeyOptions => i = pubkey_auth_options /\ pubkey_opts ws 0 = Some v
  | OTunnel => i = permit_tun /\ exists w, ws = [w] /\ exact_value t_tun w = Some v
  | ORekey => (i = rekey_limit /\ exists w r, ws = w :: r /\ (w = bs "default" /\ v = 0 \/ w <> bs "default" /\ e_scaled E w = Some v)) \/
              (i = rekey_interval /\ exists w t, ws = [w; t] /\ t <> bs "none" /\ convtime t = v /\ v <> -1)
  | OIPQoS => (i = ip_qos_interactive /\ exists w r, ws = w :: r /\ e_ipqos E w = Some v) \/
              (i = ip_qos_bulk /\ exists w, (ws = [w] \/ exists w1, ws = [w1; w]) /\ e_ipqos E w = Some v)
  | OMask => i = streamlocal_bind_mask /\ 0 <= v <= 511 /\ exists w, ws = [w] /\ e_octal E w = Some v
  | OUnused => i = unused_connection_timeout /\ exists w, ws = [w] /\
                 (strcaseeq w (bs "none") = true /\ v = 0 \/ strcaseeq w (bs "none") = false /\ convtime w = v /\ v <> -1)
  | _ => False
  end.
Definition op_str (p : op) (rest : list Z) (ws : list (list Z)) (s : sopt) (v : list Z) : Prop :=
  match p with
  | OFile j => s = j /\ exists w, ws = [w] /\ v = e_derel E w
  | OTilde j => s = j /\ exists w, ws = [w] /\ v = e_tilde E w
  | OWord j => s = j /\ ws = [v]
  | OAlgos j _ => s = j /\ ws = [v]
  | OForce => s = adm_forced_command /\ v = skip_white rest
  | OCommand j => s = j /\ v = skip_white rest
  | _ => False
  end.

Ltac look := match goal with H : same_key ?k ?s |- context [find_keyword keywords ?k] =>
  rewrite (find_keyword_lower keywords k (map tolower (bs s))) by (rewrite map_map; rewrite (map_ext (fun x => tolower (tolower x)) tolower); [exact H|]; intros x; unfold tolower, isupper; repeat match goal with |- context [if ?b then _ else _] => destruct b eqn:? end; lia) end.
Ltac key s := match goal with H : same_key ?k _ |- _ => rewrite (find_keyword_lower keywords k (bs s)) by exact H end.
Ltac nodup := repeat (apply NoDup_cons; [cbn [In]; let A := fresh in intros A; repeat (destruct A as [A|A]; [vm_compute in A; discriminate A|]); exact A|]); apply NoDup_nil.

Lemma flags_nodup : NoDup (map (fun x => map tolower (fst x)) t_flag).
Proof. cbn [map t_flag fst]. nodup. Qed.
Lemma rhosts_nodup : NoDup (map (fun x => map tolower (fst x)) t_rhosts).
Proof. cbn [map t_rhosts fst]. nodup. Qed.
Lemma root_nodup : NoDup (map (fun x => map tolower (fst x)) t_root).
Proof. cbn [map t_root fst]. nodup. Qed.
Lemma compression_nodup : NoDup (map (fun x => map tolower (fst x)) t_compression).
Proof. cbn [map t_compression fst]. nodup. Qed.
Lemma gateway_nodup : NoDup (map (fun x => map tolower (fst x)) t_gateway).
Proof. cbn [map t_gateway fst]. nodup. Qed.
Lemma tcpfwd_nodup : NoDup (map (fun x => map tolower (fst x)) t_tcpfwd).
Proof. cbn [map t_tcpfwd fst]. nodup. Qed.
Lemma level_nodup : NoDup (map (fun x => map tolower (fst x)) t_level).
Proof. cbn [map t_level fst]. nodup. Qed.
Lemma tun_nodup : NoDup (map fst t_tun).
Proof. cbn [map t_tun fst]. nodup. Qed.

(** The words of an option, as the model's table and the specification's list them. *)
Definition same_words (t : list (list Z * Z)) (u : list (string * Z)) : Prop :=
  t = map (fun x => (bs (fst x), snd x)) u /\ NoDup (map (fun x => map tolower (fst x)) t) /\
  forall s v, In (s, v) u -> map tolower (bs s) = bs s.
Lemma same_words_iff : forall t u w v, same_words t u -> (state_value t w = Some v <-> reads_as u w v).
Proof.
  intros t u w v (-> & N & L). rewrite state_value_iff by exact N. unfold reads_as, spelled. split.
  - intros (k & A & B). apply in_map_iff in A. destruct A as ([s x] & A & C). cbn [fst snd] in A. injection A as <- <-. exists s. split; [exact C|]. rewrite B. eauto.
  - intros (s & A & B). exists (bs s). split; [apply in_map_iff; exists (s, v); auto|]. rewrite B. symmetry. eauto.
Qed.
Ltac words N := split; [reflexivity|split; [exact N|]]; cbn [In]; let A := fresh in intros s v A; repeat (destruct A as [A|A]; [injection A as <- <-; reflexivity|]); destruct A.
Lemma flag_same : same_words t_flag flag_words. Proof. words flags_nodup. Qed.
Definition choice_table (i : iopt) : list (list Z * Z) :=
  match i with permit_root_login => t_root | ignore_rhosts => t_rhosts | gateway_ports => t_gateway | compression => t_compression | log_level => t_level | _ => t_tcpfwd end.
Lemma choice_same : forall s i u, In (s, i, u) choices -> same_words (choice_table i) u.
Proof.
  intros s i u H. unfold choices in H. cbn [In] in H.
  repeat (destruct H as [H|H]; [injection H as <- <- <-; cbn [choice_table];
    first [words root_nodup | words rhosts_nodup | words tcpfwd_nodup | words gateway_nodup | words compression_nodup | words level_nodup]|]). destruct H.
Qed.

(** The keyword a specification name leads to. *)
Definition leads (s : string) (p : op) : Prop := exists m, find_keyword keywords (bs s) = Some (p, m).
Lemma leads_flag : forall s i, In (s, i) flags -> leads s (OMulti i t_flag).
Proof. intros s i H. unfold flags in H. cbn [In] in H. repeat (destruct H as [H|H]; [injection H as <- <-; eexists; vm_compute; reflexivity|]). destruct H. Qed.
Lemma leads_choice : forall s i u, In (s, i, u) choices -> leads s (OMulti i (choice_table i)).
Proof. intros s i u H. unfold choices in H. cbn [In] in H. repeat (destruct H as [H|H]; [injection H as <- <- <-; eexists; vm_compute; reflexivity|]). destruct H. Qed.
Lemma leads_number : forall s i, In (s, i) numbers -> leads s (ONum i).
Proof. intros s i H. unfold numbers in H. cbn [In] in H. repeat (destruct H as [H|H]; [injection H as <- <-; eexists; vm_compute; reflexivity|]). destruct H. Qed.
Lemma leads_time : forall s i, In (s, i) times -> leads s (OTime i).
Proof. intros s i H. unfold times in H. cbn [In] in H. repeat (destruct H as [H|H]; [injection H as <- <-; eexists; vm_compute; reflexivity|]). destruct H. Qed.
Lemma leads_key : forall k s p, same_key k s -> leads s p -> exists m, find_keyword keywords k = Some (p, m).
Proof. intros k s p H (m & A). exists m. now rewrite (find_keyword_lower keywords k (bs s) H). Qed.
Ltac leads1 := eexists; vm_compute; reflexivity.

Lemma pubkey_opts_iff : forall ws v0 v, 0 <= v0 < 4 ->
  (pubkey_opts ws v0 = Some v <->
   (forall w, In w ws -> spelled w "none" \/ spelled w "touch-required" \/ spelled w "verify-required") /\ 0 <= v < 4 /\
   (Z.testbit v 0 = true <-> Z.testbit v0 0 = true \/ exists w, In w ws /\ spelled w "touch-required") /\
   (Z.testbit v 1 = true <-> Z.testbit v0 1 = true \/ exists w, In w ws /\ spelled w "verify-required")).
Proof.
  assert (B : forall x, 0 <= x < 4 -> x = 0 \/ x = 1 \/ x = 2 \/ x = 3) by (intros; lia).
  induction ws as [|w ws IH]; intros v0 v H; cbn [pubkey_opts].
  - split.
    + intros [= <-]. split; [intros ? []|]. split; [exact H|]. split; (split; [now left|intros [A|(? & [] & _)]; exact A]).
    + intros (_ & K & A & C). f_equal. assert (X : (exists w : list Z, In w [] /\ spelled w "touch-required") <-> False) by (split; [intros (? & [] & _)|tauto]).
      assert (Y : (exists w : list Z, In w [] /\ spelled w "verify-required") <-> False) by (split; [intros (? & [] & _)|tauto]).
      rewrite X in A. rewrite Y in C. clear X Y.
      destruct (B v0 H) as [-> | [-> | [-> | ->]]]; destruct (B v K) as [-> | [-> | [-> | ->]]]; cbn in A, C; try reflexivity; intuition congruence.
  - assert (L : forall s, In s ["none"; "touch-required"; "verify-required"]%string -> strcaseeq w (bs s) = true <-> spelled w s).
    { intros s Hs. unfold spelled. rewrite strcaseeq_iff. cbn [In] in Hs. repeat (destruct Hs as [<-|Hs]; [reflexivity|]). destruct Hs. }
    assert (D1 : forall a b, map tolower w = bs a -> map tolower w = bs b -> bs a = bs b) by congruence.
    destruct (strcaseeq w (bs "none")) eqn:Q1; [|destruct (strcaseeq w (bs "touch-required")) eqn:Q2; [|destruct (strcaseeq w (bs "verify-required")) eqn:Q3]].
    + apply L in Q1; [|cbn; auto]. rewrite (IH v0 v H). split.
      * intros (F & K & A & C). split; [intros x [<-|X]; [now left|now apply F]|]. split; [exact K|]. split.
        -- rewrite A. split; intros [X|(x & X & Y)]; auto; right; [exists x; cbn [In]; auto|]. destruct X as [<-|X]; [|eauto]. pose proof (D1 _ _ Q1 Y) as Z0. vm_compute in Z0. discriminate.
        -- rewrite C. split; intros [X|(x & X & Y)]; auto; right; [exists x; cbn [In]; auto|]. destruct X as [<-|X]; [|eauto]. pose proof (D1 _ _ Q1 Y) as Z0. vm_compute in Z0. discriminate.
      * intros (F & K & A & C). split; [intros x X; apply F; now right|]. split; [exact K|]. split.
        -- rewrite A. split; intros [X|(x & X & Y)]; auto; right; [|exists x; cbn [In]; auto]. destruct X as [<-|X]; [|eauto]. pose proof (D1 _ _ Q1 Y) as Z0. vm_compute in Z0. discriminate.
        -- rewrite C. split; intros [X|(x & X & Y)]; auto; right; [|exists x; cbn [In]; auto]. destruct X as [<-|X]; [|eauto]. pose proof (D1 _ _ Q1 Y) as Z0. vm_compute in Z0. discriminate.
    + apply L in Q2; [|cbn; auto]. assert (H' : 0 <= Z.lor v0 1 < 4) by (destruct (B v0 H) as [-> | [-> | [-> | ->]]]; cbn; lia).
      assert (T0 : Z.testbit (Z.lor v0 1) 0 = true) by (rewrite Z.lor_spec; apply orb_true_iff; now right).
      assert (T1 : Z.testbit (Z.lor v0 1) 1 = Z.testbit v0 1) by (rewrite Z.lor_spec; apply orb_false_r).
      rewrite (IH (Z.lor v0 1) v H'), T1. split.
      * intros (F & K & A & C). split; [intros x [<-|X]; [auto|now apply F]|]. split; [exact K|]. split.
        -- rewrite A. split; intros _; [right; exists w; cbn [In]; auto|now left].
        -- rewrite C. split; intros [X|(x & X & Y)]; auto; right; [exists x; cbn [In]; auto|]. destruct X as [<-|X]; [|eauto]. pose proof (D1 _ _ Q2 Y) as Z0. vm_compute in Z0. discriminate.
      * intros (F & K & A & C). split; [intros x X; apply F; now right|]. split; [exact K|]. split.
        -- rewrite A. split; intros _; [now left|right; exists w; cbn [In]; auto].
        -- rewrite C. split; intros [X|(x & X & Y)]; auto; right; [|exists x; cbn [In]; auto]. destruct X as [<-|X]; [|eauto]. pose proof (D1 _ _ Q2 Y) as Z0. vm_compute in Z0. discriminate.
    + apply L in Q3; [|cbn; auto]. assert (H' : 0 <= Z.lor v0 2 < 4) by (destruct (B v0 H) as [-> | [-> | [-> | ->]]]; cbn; lia).
      assert (T0 : Z.testbit (Z.lor v0 2) 1 = true) by (rewrite Z.lor_spec; apply orb_true_iff; now right).
      assert (T1 : Z.testbit (Z.lor v0 2) 0 = Z.testbit v0 0) by (rewrite Z.lor_spec; apply orb_false_r).
      rewrite (IH (Z.lor v0 2) v H'), T1. split.
      * intros (F & K & A & C). split; [intros x [<-|X]; [auto|now apply F]|]. split; [exact K|]. split.
        -- rewrite A. split; intros [X|(x & X & Y)]; auto; right; [exists x; cbn [In]; auto|]. destruct X as [<-|X]; [|eauto]. pose proof (D1 _ _ Q3 Y) as Z0. vm_compute in Z0. discriminate.
        -- rewrite C. split; intros _; [right; exists w; cbn [In]; auto|now left].
      * intros (F & K & A & C). split; [intros x X; apply F; now right|]. split; [exact K|]. split.
        -- rewrite A. split; intros [X|(x & X & Y)]; auto; right; [|exists x; cbn [In]; auto]. destruct X as [<-|X]; [|eauto]. pose proof (D1 _ _ Q3 Y) as Z0. vm_compute in Z0. discriminate.
        -- rewrite C. split; intros _; [now left|right; exists w; cbn [In]; auto].
    + split; [discriminate|]. intros (F & _). exfalso. destruct (F w (or_introl eq_refl)) as [X|[X|X]]; apply L in X; cbn; auto; congruence.
Qed.

(** The model's table agrees with the specification's lists: a computation over the table. *)
Definition same (n : list Z) (s : string) : bool := beqb n (map tolower (bs s)).
Fixpoint tbl_eqb (a b : list (list Z * Z)) : bool :=
  match a, b with
  | [], [] => true
  | (k, v) :: r, (k', v') :: r' => beqb k k' && (v =? v') && tbl_eqb r r'
  | _, _ => false
  end.
Lemma tbl_eq : forall a b, tbl_eqb a b = true -> a = b.
Proof.
  induction a as [|[k v] a IH]; intros [|[k' v'] b]; cbn [tbl_eqb]; try discriminate; auto.
  rewrite !andb_true_iff. intros ((A & B) & C). apply beqb_eq in A. apply Z.eqb_eq in B. f_equal; [congruence|auto].
Qed.
Definition check_op (n : list Z) (p : op) : bool :=
  match p with
  | OMulti i t => (tbl_eqb t t_flag && existsb (fun '(s, j) => iopt_beq i j && same n s) flags) ||
                  (tbl_eqb t (choice_table i) && existsb (fun '(s, j, _) => iopt_beq i j && same n s) choices)
  | OTime i => existsb (fun '(s, j) => iopt_beq i j && same n s) times
  | ONum i => existsb (fun '(s, j) => iopt_beq i j && same n s) numbers
  | OPubkeyOptions => same n "PubkeyAuthOptions"
  | OTunnel => same n "PermitTunnel"
  | ORekey => same n "RekeyLimit"
  | OIPQoS => same n "IPQoS"
  | OMask => same n "StreamLocalBindMask"
  | OUnused => same n "UnusedConnectionTimeout"
  | OFile s => existsb (fun '(x, j) => sopt_beq s j && same n x) file_names
  | OTilde s => sopt_beq s authorized_principals_file && same n "AuthorizedPrincipalsFile"
  | OWord s | OAlgos s _ => existsb (fun '(x, j) => sopt_beq s j && same n x) plain_words
  | OForce => same n "ForceCommand"
  | OCommand s => existsb (fun '(x, j) => sopt_beq s j && same n x) commands
  | OUsers a | OGroups a => existsb (fun '(x, j) => aopt_beq a j && same n x) growing
  | OAcceptEnv => same n "AcceptEnv"
  | OOnce a KeysFiles => aopt_beq a authorized_keys_files && same n "AuthorizedKeysFile"
  | OOnce a SetEnv => aopt_beq a setenv && same n "SetEnv"
  | OOnce a AuthMethods => aopt_beq a auth_methods && same n "AuthenticationMethods"
  | OOnce a PermitListen => aopt_beq a permitted_listens && same n "PermitListen"
  | OOnce a PermitOpen => aopt_beq a permitted_opens && same n "PermitOpen"
  | OOnce a Timeouts => aopt_beq a channel_timeouts && same n "ChannelTimeout"
  | OOnce a Verbose => aopt_beq a log_verbose && same n "LogVerbose"
  | OSubsystem => same n "Subsystem"
  | OMatch => same n "match"
  | OInclude => same n "include"
  | _ => true
  end.
Lemma table_checked : forallb (fun '(n, p, _) => beqb (map tolower n) n && check_op n p) keywords = true.
Proof. vm_compute. reflexivity. Qed.
Lemma checked : forall k p m, find_keyword keywords k = Some (p, m) -> check_op (map tolower k) p = true.
Proof.
  intros k p m H. destruct (find_keyword_in _ _ _ _ H) as (n & A & B). pose proof table_checked as T. rewrite forallb_forall in T.
  specialize (T _ A). cbv beta iota in T. apply andb_true_iff in T. destruct T as [T1 T2]. apply beqb_eq in T1. now rewrite B, T1.
Qed.
Lemma same_str : forall k s, same (map tolower k) s = true -> same_key k s.
Proof. intros k s H. now apply beqb_eq in H. Qed.

Lemma sets_int_iff : forall k rest ws i v, sets_int E (mkDir k rest ws) i v <->
  exists p m, find_keyword keywords k = Some (p, m) /\ op_int p ws i v.
Proof.
  intros k rest ws i v. split.
  - intros H. inversion H as [? ? w s ? ? NN KK RR|? ? w s ? t ? NN KK RR|? ? w s ? ? NN KK RR|? ? w s ? ? NN KK RR RQ|? ? ? ? KK RA RR R1 R2|? ? w s ? KK NN RR|? ? w ? ? KK RR|? ? w t ? KK R1 R2 R3|? ? w ? ? KK RR|? ? w ? KK RR|? ? w w2 ? KK RR|? ? w ? KK RR|? ? w ? KK R1 R2 R3|? ? w KK RR]; subst;
      match goal with
      | A : In (?s, ?i) flags, K : same_key _ _ |- _ => destruct (leads_key _ _ _ K (leads_flag _ _ A)) as (m & Q)
      | A : In (?s, ?i, ?t) choices, K : same_key _ _ |- _ => destruct (leads_key _ _ _ K (leads_choice _ _ _ A)) as (m & Q)
      | A : In (?s, ?i) numbers, K : same_key _ _ |- _ => destruct (leads_key _ _ _ K (leads_number _ _ A)) as (m & Q)
      | A : In (?s, ?i) times, K : same_key _ _ |- _ => destruct (leads_key _ _ _ K (leads_time _ _ A)) as (m & Q)
      | K : same_key _ "PubkeyAuthOptions" |- _ => destruct (leads_key _ _ OPubkeyOptions K ltac:(leads1)) as (m & Q)
      | K : same_key _ "PermitTunnel" |- _ => destruct (leads_key _ _ OTunnel K ltac:(leads1)) as (m & Q)
      | K : same_key _ "RekeyLimit" |- _ => destruct (leads_key _ _ ORekey K ltac:(leads1)) as (m & Q)
      | K : same_key _ "IPQoS" |- _ => destruct (leads_key _ _ OIPQoS K ltac:(leads1)) as (m & Q)
      | K : same_key _ "StreamLocalBindMask" |- _ => destruct (leads_key _ _ OMask K ltac:(leads1)) as (m & Q)
      | K : same_key _ "UnusedConnectionTimeout" |- _ => destruct (leads_key _ _ OUnused K ltac:(leads1)) as (m & Q)
      end; do 2 eexists; (split; [exact Q|]); cbn [op_int].
    + split; [reflexivity|]. exists w. split; [reflexivity|]. now apply (same_words_iff _ _ _ _ flag_same).
    + split; [reflexivity|]. exists w. split; [reflexivity|]. match goal with A : In _ choices |- _ => apply (same_words_iff _ _ _ _ (choice_same _ _ _ A)) end. assumption.
    + split; [reflexivity|]. eauto.
    + split; [reflexivity|]. eauto.
    + split; [reflexivity|]. apply pubkey_opts_iff; [lia|]. split; [exact RA|split; [exact RR|split]].
      * rewrite R1. split; [auto|]. intros [X|X]; [discriminate X|exact X].
      * rewrite R2. split; [auto|]. intros [X|X]; [discriminate X|exact X].
    + split; [reflexivity|]. exists (bs s). split; [reflexivity|]. apply (exact_value_iff _ _ _ tun_nodup).
      unfold t_tun. cbn [In] in *. repeat match goal with X : _ \/ _ |- _ => destruct X as [X|X] end; try contradiction;
        match goal with X : (_, _) = (s, v) |- _ => injection X as <- <- end; auto.
    + left. eauto.
    + right. eauto 7.
    + left. eauto.
    + right. split; [reflexivity|]. exists w. auto.
    + right. split; [reflexivity|]. exists w2. eauto.
    + split; [reflexivity|]. eauto.
    + split; [reflexivity|]. exists w. split; [reflexivity|]. right. splits; auto. destruct (strcaseeq w (bs "none")) eqn:X; [|reflexivity]. apply strcaseeq_iff in X. exfalso. exact (R1 X).
    + split; [reflexivity|]. exists w. split; [reflexivity|]. left. split; [|reflexivity]. now apply strcaseeq_iff.
  - intros (p & m & F & O). pose proof (checked k p m F) as C. destruct p; cbn [op_int] in O; try contradiction; cbn [check_op] in C.
    + destruct O as (-> & w & -> & O). apply orb_true_iff in C. destruct C as [C|C]; apply andb_true_iff in C; destruct C as [T C].
      * apply tbl_eq in T. subst t. apply existsb_exists in C. destruct C as ([s j] & A & B). apply andb_true_iff in B. destruct B as [B1 B2].
        apply internal_iopt_dec_bl in B1. subst j. eapply s_flag; [exact A|now apply same_str|]. now apply (same_words_iff _ _ _ _ flag_same).
      * apply tbl_eq in T. subst t. apply existsb_exists in C. destruct C as ([[s j] u] & A & B). apply andb_true_iff in B. destruct B as [B1 B2].
        apply internal_iopt_dec_bl in B1. subst j. eapply s_choice; [exact A|now apply same_str|]. now apply (same_words_iff _ _ _ _ (choice_same _ _ _ A)).
    + destruct O as (-> & w & -> & O1 & O2). apply existsb_exists in C. destruct C as ([s j] & A & B). apply andb_true_iff in B. destruct B as [B1 B2].
      apply internal_iopt_dec_bl in B1. subst j. eapply s_time; eauto. now apply same_str.
    + destruct O as (-> & w & -> & O). apply existsb_exists in C. destruct C as ([s j] & A & B). apply andb_true_iff in B. destruct B as [B1 B2].
      apply internal_iopt_dec_bl in B1. subst j. eapply s_number; eauto. now apply same_str.
    + destruct O as (-> & O). apply pubkey_opts_iff in O; [|lia]. destruct O as (O1 & O2 & O3 & O4). apply s_pubkey; auto; [now apply same_str| |].
      * rewrite O3. split; [intros [X|X]; [discriminate X|exact X]|auto].
      * rewrite O4. split; [intros [X|X]; [discriminate X|exact X]|auto].
    + destruct O as (-> & w & -> & O). apply (exact_value_iff _ _ _ tun_nodup) in O. unfold t_tun in O. cbn [In] in O.
      repeat (destruct O as [O|O]; [apply pair_equal_spec in O; destruct O as [<- <-]; eapply s_tunnel; [now apply same_str| |reflexivity]; cbn [In]; auto|]). destruct O.
    + destruct O as [(-> & w & r & -> & O)|(-> & w & t & -> & O1 & O2 & O3)]; [eapply s_limit|eapply s_interval]; eauto; now apply same_str.
    + destruct O as [(-> & w & r & -> & O)|(-> & w & [->|(w1 & ->)] & O)]; [eapply s_qos|eapply s_bulk1|eapply s_bulk2]; eauto; now apply same_str.
    + destruct O as (-> & Rg & w & -> & O). eapply s_mask; eauto. now apply same_str.
    + destruct O as (-> & w & -> & [(O & ->)|(O1 & O2 & O3)]).
      * apply s_never; [now apply same_str|]. now apply strcaseeq_iff in O.
      * eapply s_unused; eauto; [now apply same_str|]. intros X. assert (Y : strcaseeq w (bs "none") = true) by (apply strcaseeq_iff; exact X). congruence.
Qed.

Lemma leads_file : forall s i, In (s, i) file_names -> leads s (OFile i).
Proof. intros s i H. unfold file_names in H. cbn [In] in H. repeat (destruct H as [H|H]; [injection H as <- <-; eexists; vm_compute; reflexivity|]). destruct H. Qed.
Lemma leads_word : forall s i, In (s, i) plain_words -> leads s (OWord i) \/ exists ca, leads s (OAlgos i ca).
Proof. intros s i H. unfold plain_words in H. cbn [In] in H. repeat (destruct H as [H|H]; [injection H as <- <-; first [left; eexists; vm_compute; reflexivity|right; do 2 eexists; vm_compute; reflexivity]|]). destruct H. Qed.
Lemma leads_command : forall s i, In (s, i) commands -> (i = adm_forced_command /\ leads s OForce) \/ leads s (OCommand i).
Proof. intros s i H. unfold commands in H. cbn [In] in H. repeat (destruct H as [H|H]; [injection H as <- <-; first [right; eexists; vm_compute; reflexivity|left; split; [reflexivity|]; eexists; vm_compute; reflexivity]|]). destruct H. Qed.

Lemma sets_str_iff : forall k rest ws i v, sets_str E (mkDir k rest ws) i v <->
  exists p m, find_keyword keywords k = Some (p, m) /\ op_str p rest ws i v.
Proof.
  intros k rest ws i v. split.
  - intros H. inversion H as [? ? w s ? NN KK|? ? w KK|? ? w s ? NN KK|? ? ? s ? NN KK]; subst.
    + destruct (leads_key _ _ _ KK (leads_file _ _ NN)) as (m & Q). do 2 eexists. split; [exact Q|]. cbn [op_str]. eauto.
    + destruct (leads_key _ _ (OTilde authorized_principals_file) KK ltac:(leads1)) as (m & Q). do 2 eexists. split; [exact Q|]. cbn [op_str]. eauto.
    + destruct (leads_word _ _ NN) as [L|(ca & L)]; destruct (leads_key _ _ _ KK L) as (m & Q); do 2 eexists; (split; [exact Q|]); cbn [op_str]; auto.
    + destruct (leads_command _ _ NN) as [(-> & L)|L]; destruct (leads_key _ _ _ KK L) as (m & Q); do 2 eexists; (split; [exact Q|]); cbn [op_str]; auto.
  - intros (p & m & F & O). pose proof (checked k p m F) as C. destruct p; cbn [op_str] in O; try contradiction; cbn [check_op] in C.
    + destruct O as (-> & w & -> & ->). apply existsb_exists in C. destruct C as ([t j] & A & B). apply andb_true_iff in B. destruct B as [B1 B2].
      apply internal_sopt_dec_bl in B1. subst j. eapply s_file; [exact A|now apply same_str].
    + destruct O as (-> & w & -> & ->). apply andb_true_iff in C. destruct C as [B1 B2]. apply internal_sopt_dec_bl in B1. subst s. apply s_principals. now apply same_str.
    + destruct O as (-> & ->). apply existsb_exists in C. destruct C as ([t j] & A & B). apply andb_true_iff in B. destruct B as [B1 B2].
      apply internal_sopt_dec_bl in B1. subst j. eapply s_word; [exact A|now apply same_str].
    + destruct O as (-> & ->). apply existsb_exists in C. destruct C as ([t j] & A & B). apply andb_true_iff in B. destruct B as [B1 B2].
      apply internal_sopt_dec_bl in B1. subst j. eapply s_word; [exact A|now apply same_str].
    + destruct O as (-> & ->). eapply (s_command E k rest ws "ForceCommand"); [now left|now apply same_str].
    + destruct O as (-> & ->). apply existsb_exists in C. destruct C as ([t j] & A & B). apply andb_true_iff in B. destruct B as [B1 B2].
      apply internal_sopt_dec_bl in B1. subst j. eapply s_command; [exact A|now apply same_str].
Qed.

Definition op_arr (p : op) (ws : list (list Z)) (a : aopt) (v : list (list Z)) : Prop :=
  match p with
  | OUsers b | OGroups b => a = b /\ v = ws
  | OAcceptEnv => a = accept_env /\ v = ws
  | OOnce b q => a = b /\ match q with
      | KeysFiles => v = map (e_tilde E) ws
      | SetEnv => first_of_each [] ws v
      | AuthMethods | Timeouts | Verbose => v = ws
      | PermitListen => Forall2 (fun w t => (w = bs "any" \/ w = bs "none") /\ t = w \/ w <> bs "any" /\ w <> bs "none" /\ e_permit E true w = Some t) ws v
      | PermitOpen => Forall2 (fun w t => (w = bs "any" \/ w = bs "none") /\ t = w \/ w <> bs "any" /\ w <> bs "none" /\ e_permit E false w = Some t) ws v
      end
  | _ => False
  end.
Lemma leads_grow : forall s i, In (s, i) growing -> leads s (OUsers i) \/ leads s (OGroups i) \/ i = accept_env /\ leads s OAcceptEnv.
Proof.
  intros s i H. unfold growing in H. cbn [In] in H.
  repeat (destruct H as [H|H]; [injection H as <- <-; first [left; leads1|right; left; leads1|right; right; split; [reflexivity|leads1]]|]). destruct H.
Qed.
Lemma leads_list : forall s i, In (s, i) plain_lists -> exists q, leads s (OOnce i q) /\ (q = AuthMethods \/ q = Timeouts \/ q = Verbose).
Proof.
  intros s i H. unfold plain_lists in H. cbn [In] in H.
  repeat (destruct H as [H|H]; [injection H as <- <-; eexists; split; [leads1|]; auto|]). destruct H.
Qed.
Lemma sets_arr_iff : forall k rest ws i v, sets_arr E (mkDir k rest ws) i v <->
  exists p m, find_keyword keywords k = Some (p, m) /\ op_arr p ws i v.
Proof.
  intros k rest ws i v. split.
  - intros H. inversion H as [? ? ? s ? NN KK|? ? ? s ? NN KK|? ? ? KK|? ? ? ? KK RR|? ? ? s ? li ? NN KK RR]; subst.
    + destruct (leads_grow _ _ NN) as [L|[L|[-> L]]]; destruct (leads_key _ _ _ KK L) as (m & Q); do 2 eexists; (split; [exact Q|]); cbn [op_arr]; auto.
    + destruct (leads_list _ _ NN) as (q & L & D); destruct (leads_key _ _ _ KK L) as (m & Q). do 2 eexists. split; [exact Q|]. cbn [op_arr]. split; [reflexivity|].
      destruct D as [-> | [-> | ->]]; reflexivity.
    + destruct (leads_key _ _ (OOnce authorized_keys_files KeysFiles) KK ltac:(leads1)) as (m & Q). do 2 eexists. split; [exact Q|]. cbn [op_arr]. auto.
    + destruct (leads_key _ _ (OOnce setenv SetEnv) KK ltac:(leads1)) as (m & Q). do 2 eexists. split; [exact Q|]. cbn [op_arr]. auto.
    + cbn [In] in NN. destruct NN as [X|[X|[]]]; injection X as <- <- <-.
      * destruct (leads_key _ _ (OOnce permitted_opens PermitOpen) KK ltac:(leads1)) as (m & Q). do 2 eexists. split; [exact Q|]. cbn [op_arr]. auto.
      * destruct (leads_key _ _ (OOnce permitted_listens PermitListen) KK ltac:(leads1)) as (m & Q). do 2 eexists. split; [exact Q|]. cbn [op_arr]. auto.
  - intros (p & m & F & O). pose proof (checked k p m F) as C. destruct p; cbn [op_arr] in O; try contradiction; cbn [check_op] in C.
    + destruct O as (-> & ->). apply existsb_exists in C. destruct C as ([t j] & A & B). apply andb_true_iff in B. destruct B as [B1 B2].
      apply internal_aopt_dec_bl in B1. subst j. eapply s_grow; [exact A|now apply same_str].
    + destruct O as (-> & ->). apply existsb_exists in C. destruct C as ([t j] & A & B). apply andb_true_iff in B. destruct B as [B1 B2].
      apply internal_aopt_dec_bl in B1. subst j. eapply s_grow; [exact A|now apply same_str].
    + destruct O as (-> & ->). eapply (s_grow E k rest ws "AcceptEnv"); [cbn [growing In]; auto 8|now apply same_str].
    + destruct O as (-> & O).
      destruct k0; subst; apply andb_true_iff in C; destruct C as [B1 B2]; try (apply internal_aopt_dec_bl in B1; subst a).
      * apply s_keys. now apply same_str.
      * apply s_env; [now apply same_str|exact O].
      * eapply (s_list E k rest ws "AuthenticationMethods"); [cbn [plain_lists In]; auto 8|now apply same_str].
      * eapply (s_permit E k rest ws "PermitListen" permitted_listens true); [cbn [In]; auto|now apply same_str|exact O].
      * eapply (s_permit E k rest ws "PermitOpen" permitted_opens false); [cbn [In]; auto|now apply same_str|exact O].
      * eapply (s_list E k rest ws "ChannelTimeout"); [cbn [plain_lists In]; auto 8|now apply same_str].
      * eapply (s_list E k rest ws "LogVerbose"); [cbn [plain_lists In]; auto 8|now apply same_str].
Qed.
End Ops.
