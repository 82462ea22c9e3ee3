(** C83: the terminal at the far end gets the modes of the near one. *)
From Verif Require Import Base Text WireSpec TtyModel TtySpec TtyProof.
Local Open Scope Z_scope.

(** What is received changes the terminal exactly if it is a sequence of settings and
    its end, with nothing after it; then the last setting of each mode counts and the
    rest of the terminal stays as it was *)
Theorem C83_applied : forall p t data, table_ok p -> is_bytes data -> data <> [] ->
  ((exists t', parse_modes p (Some t) data = PSet t') <-> exists ss l tail, data = l ++ tail /\ settings ss l /\ ends tail) /\
  (forall t', parse_modes p (Some t) data = PSet t' -> exists ss l tail, data = l ++ tail /\ settings ss l /\ ends tail /\ meant p t ss t').
Proof.
  intros p t data T B N. unfold parse_modes.
  replace (zlen data =? 0) with false by (symmetry; apply Z.eqb_neq; intros E; apply zlen_zero_nil in E; contradiction).
  assert (K : forall t', parse_loop (S (length data)) p t data = PSet t' -> exists ss l tail, data = l ++ tail /\ settings ss l /\ ends tail /\ meant p t ss t').
  { intros t' H. destruct (shape_all _ data (Nat.lt_succ_diag_r _) B) as [ss l tail -> S E | ss l op more -> S O M | ss l op more -> S O M].
    - rewrite (run_end p t ss l tail T S E) in H. injection H as <-. exists ss, l, tail. splits; auto. apply meant_fold; [assumption|]. eapply settings_nonneg. exact S.
    - rewrite (run_left p t ss l op more T S O M) in H. discriminate.
    - rewrite (run_short p t ss l op more S O M) in H. discriminate. }
  split; [|exact K]. split.
  - intros (t' & H). destruct (K _ H) as (ss & l & tail & X & Y & W & _). exists ss, l, tail. auto.
  - intros (ss & l & tail & -> & S & E). eexists. apply (run_end p t ss l tail T S E).
Qed.
Print Assumptions C83_applied.

(** The connection ends exactly if a setting is cut short *)
Theorem C83_fatal : forall p t data, table_ok p -> is_bytes data ->
  (parse_modes p t data = PFatal <-> exists ss l op more, data = l ++ op :: more /\ settings ss l /\ 1 <= op < 160 /\ zlen more < 4).
Proof.
  intros p t data T B.
  assert (K : forall t, parse_loop (S (length data)) p t data = PFatal <-> exists ss l op more, data = l ++ op :: more /\ settings ss l /\ 1 <= op < 160 /\ zlen more < 4).
  { intros u. split.
    - intros H. destruct (shape_all _ data (Nat.lt_succ_diag_r _) B) as [ss l tail -> S E | ss l op more -> S O M | ss l op more -> S O M].
      + rewrite (run_end p u ss l tail T S E) in H. discriminate.
      + rewrite (run_left p u ss l op more T S O M) in H. discriminate.
      + exists ss, l, op, more. auto.
    - intros (ss & l & op & more & -> & S & O & M). apply run_short with ss; assumption. }
  unfold parse_modes. destruct (Z.eqb_spec (zlen data) 0) as [E|E].
  - apply zlen_zero_nil in E. subst data. split; [discriminate|]. intros (ss & l & op & more & X & _). destruct l; discriminate.
  - destruct t as [t|]; [apply K|]. rewrite <- (K (mkT (fun _ => 0) (fun _ => 0) 0 0)).
    destruct (parse_loop (S (length data)) p (mkT (fun _ => 0) (fun _ => 0) 0 0) data); split; congruence.
Qed.
Print Assumptions C83_fatal.

Lemma baud_of_ok : forall p c, baud_of p c (speed_to_baud p c).
Proof.
  intros p c. unfold baud_of, speed_to_baud. induction (pl_speeds p) as [|[b k] l IH]; cbn [find map].
  - right. split; [intros []|reflexivity].
  - cbn [snd]. destruct (Z.eqb_spec k c) as [-> | N].
    + left. exists [], l. split; [reflexivity|intros []].
    + destruct IH as [(pre & post & E & X) | (X & E)].
      * left. exists ((b, k) :: pre), post. split; [cbn [app]; rewrite E at 1; reflexivity|]. cbn [map snd]. intros [Y|Y]; [congruence|contradiction].
      * right. split; [|exact E]. intros [Y|Y]; [congruence|contradiction].
Qed.

(** From one system to another.  Each mode that both know, with a bit of its own at the
    far end, is there as it is here; each character too, except that one that is
    disabled here is disabled there and that 255 counts as disabled; what the near
    system does not know stays as it was.  The line speeds are those with the same baud
    rates, or 9600. *)
Theorem C83_trip : forall p q bug s t, table_ok p -> table_ok q -> speeds_ok p -> chars_ok s ->
  exists t', parse_modes q (Some t) (make_modes p bug (Some s)) = PSet t' /\
    (forall op f' mask' f mask n, In (op, EMode f' mask') (pl_modes p) -> own_bit q op f mask n -> ~ (op = 42 /\ bug = true) ->
       (Z.testbit (t_flag t' f) n = true <-> Z.land (t_flag s f') mask' <> 0)) /\
    (forall op i' i, In (op, EChar i') (pl_modes p) -> own_char q op i ->
       t_cc t' i = match pl_vdisable p, pl_vdisable q with
                   | Some d, Some d' => if (t_cc s i' =? d) || (t_cc s i' =? 255) then d' else t_cc s i'
                   | Some d, None => if t_cc s i' =? d then 255 else t_cc s i'
                   | None, Some d' => if t_cc s i' =? 255 then d' else t_cc s i'
                   | None, None => t_cc s i'
                   end) /\
    (forall op f mask n, (forall e, ~ In (op, e) (pl_modes p)) -> own_bit q op f mask n -> Z.testbit (t_flag t' f) n = Z.testbit (t_flag t f) n) /\
    (forall op i, (forall e, ~ In (op, e) (pl_modes p)) -> own_char q op i -> t_cc t' i = t_cc t i) /\
    (exists baud, baud_of p (t_in s) baud /\ constant_for q baud (t_in t')) /\ (exists baud, baud_of p (t_out s) baud /\ constant_for q baud (t_out t')).
Proof.
  intros p q bug s t Tp Tq Sp C. destruct (all_settings p bug s C Tp Sp) as (l & E & S). rewrite E. clear E.
  assert (En : ends [0]) by (right; exists 0; auto).
  exists (fold_left (effect q) (all_sent p bug s) t). split.
  { unfold parse_modes. replace (zlen (l ++ [0]) =? 0) with false by (symmetry; apply Z.eqb_neq; rewrite zlen_app; pose proof (zlen_nonneg _ l); unfold zlen at 2; cbn [length]; lia).
    apply (run_end q t _ l [0] Tq S En). }
  destruct (meant_fold q t (all_sent p bug s) Tq (settings_nonneg _ _ S)) as (H1 & H2 & H3 & H4 & H5 & _).
  set (t' := fold_left (effect q) (all_sent p bug s) t) in *. pose proof (all_nodup p bug s Tp) as Nd.
  assert (Rng : forall op e, In (op, e) (pl_modes q) -> 1 <= op < 128) by (intros op e I; destruct Tq as (_ & F); rewrite Forall_forall in F; apply F in I; exact I).
  splits.
  - intros op f' mask' f mask n I B NB. rewrite (H3 _ _ _ _ B).
    rewrite (last_in op (all_sent p bug s) (if Z.land (t_flag s f') mask' =? 0 then 0 else 1) Nd).
    + cbn [setting_or]. destruct (Z.eqb_spec (Z.land (t_flag s f') mask') 0); cbn; split; congruence.
    + apply (in_all p bug s _ _ I). unfold sent. cbn [fst snd]. replace ((op =? 42) && bug) with false; [left; reflexivity|].
      symmetry. apply andb_false_iff. destruct (Z.eqb_spec op 42); [|auto]. right. destruct bug; [|reflexivity]. exfalso. apply NB. auto.
  - intros op i' i I B. rewrite (H5 _ _ B). rewrite (last_in op (all_sent p bug s) (char_encode p (t_cc s i')) Nd).
    + cbn [setting_or]. unfold char_encode. pose proof (C i') as R.
      destruct (pl_vdisable p) as [d|], (pl_vdisable q) as [d'|].
      * destruct (t_cc s i' =? d); cbn [orb]; [reflexivity|]. destruct (t_cc s i' =? 255); [reflexivity|]. apply Z.mod_small. lia.
      * destruct (t_cc s i' =? d); [reflexivity|]. apply Z.mod_small. lia.
      * destruct (t_cc s i' =? 255); [reflexivity|]. apply Z.mod_small. lia.
      * apply Z.mod_small. lia.
    + apply (in_all p bug s _ _ I). left. reflexivity.
  - intros op f mask n N B. rewrite (H3 _ _ _ _ B). rewrite not_all; [reflexivity| |assumption]. destruct B as (I & _). eapply Rng. exact I.
  - intros op i N B. rewrite (H5 _ _ B). rewrite not_all; [reflexivity| |assumption]. destruct B as (I & _). eapply Rng. exact I.
  - rewrite (last_in 128 (all_sent p bug s) (speed_to_baud p (t_in s)) Nd) in H1 by (right; left; reflexivity). eexists. split; [apply baud_of_ok|]. apply H1. apply baud_range. assumption.
  - rewrite (last_in 129 (all_sent p bug s) (speed_to_baud p (t_out s)) Nd) in H2 by (left; reflexivity). eexists. split; [apply baud_of_ok|]. apply H2. apply baud_range. assumption.
Qed.
Print Assumptions C83_trip.

(** Without a terminal nothing is set at the far end, and an empty string sets nothing *)
Theorem C83_none : forall p q bug t, table_ok q -> parse_modes q (Some t) (make_modes p bug None) = PSet t /\ parse_modes q (Some t) [] = PNone /\
  forall data t', parse_modes q None data <> PSet t'.
Proof.
  intros p q bug t T. splits; try reflexivity. intros data t'. unfold parse_modes. destruct (zlen data =? 0); [discriminate|].
  destruct (parse_loop (S (length data)) q (mkT (fun _ => 0) (fun _ => 0) 0 0) data); discriminate.
Qed.
Print Assumptions C83_none.

(** Refuted: that all modes arrive.  The character sizes share bits (CSIZE is 0x30, CS6
    0x10, CS7 0x20 and CS8 0x30 on Linux), and a size is sent as set if any of its bits
    is: a terminal with six or seven bits is eight bits wide at the far end *)
Definition sizes : platform := mkPl [(90, EMode FC 32); (91, EMode FC 48); (92, EMode FC 256)] (Some 0) [(38400, 15)] 13.
Theorem C83_size_refuted : forall cflag cc cc' t_old, cflag = 16 \/ cflag = 32 -> t_old = 0 \/ t_old = 16 \/ t_old = 32 \/ t_old = 48 ->
  exists t', parse_modes sizes (Some (mkT (fun _ => t_old) cc' 15 15)) (make_modes sizes false (Some (mkT (fun _ => cflag) cc 15 15))) = PSet t' /\
    t_flag t' FC = 48.
Proof.
  intros cflag cc cc' t_old [-> | ->] [-> | [-> | [-> | ->]]]; eexists; (split; [vm_compute; reflexivity|vm_compute; reflexivity]).
Qed.
Print Assumptions C83_size_refuted.

(** Refuted: that a character arrives unless it is disabled: 255 is taken for disabled *)
Theorem C83_255_refuted : forall p q bug s t op i' i d d', table_ok p -> table_ok q -> speeds_ok p -> chars_ok s ->
  In (op, EChar i') (pl_modes p) -> own_char q op i -> pl_vdisable p = Some d -> pl_vdisable q = Some d' ->
  t_cc s i' = 255 -> d <> 255 ->
  exists t', parse_modes q (Some t) (make_modes p bug (Some s)) = PSet t' /\ t_cc t' i = d'.
Proof.
  intros p q bug s t op i' i d d' Tp Tq Sp C I B Vp Vq E D. destruct (C83_trip p q bug s t Tp Tq Sp C) as (t' & P & _ & K & _).
  exists t'. split; [assumption|]. rewrite (K _ _ _ I B), Vp, Vq, E, Z.eqb_refl, orb_true_r. reflexivity.
Qed.
Print Assumptions C83_255_refuted.

(** ** Examples *)
Definition lin : platform := mkPl [(1, EChar 0); (2, EChar 1); (30, EMode FI 4); (42, EMode FI 16384); (53, EMode FL 8); (70, EMode FO 1)] (Some 0) [(9600, 13); (38400, 15)] 13.
Definition bsd : platform := mkPl [(1, EChar 8); (2, EChar 9); (17, EChar 18); (30, EMode FI 4); (53, EMode FL 8); (70, EMode FO 1)] (Some 255) [(9600, 9600); (38400, 38400)] 9600.
Definition t1 : termios := mkT (fun f => match f with FI => 16388 | FL => 0 | _ => 1 end) (fun i => if i =? 0 then 3 else 0) 15 13.
Definition t2 : termios := mkT (fun f => 15) (fun i => 99) 0 0.
Example C83_ok : table_ok lin /\ table_ok bsd /\ speeds_ok lin /\ chars_ok t1 /\ own_bit bsd 53 FL 8 3 /\ own_char bsd 2 9.
Proof.
  splits.
  - split; [repeat constructor; cbn; intuition lia|repeat constructor; cbn; lia].
  - split; [repeat constructor; cbn; intuition lia|repeat constructor; cbn; lia].
  - repeat constructor; cbn; lia.
  - intros i. cbn [t1 t_cc]. destruct (i =? 0); lia.
  - unfold own_bit. splits; [cbn; tauto|lia|reflexivity|]. intros op' mask' I N. cbn in I.
    repeat (destruct I as [I|I]; [try discriminate I; injection I as <- <-; first [congruence|reflexivity]|]). destruct I.
  - split; [cbn; tauto|]. intros op' I. cbn in I. repeat (destruct I as [I|I]; [try discriminate I; injection I as <-; first [congruence|reflexivity]|]). destruct I.
Qed.
Example C83_runs : match parse_modes bsd (Some t2) (make_modes lin false (Some t1)) with
  | PSet t => (t_flag t FI, t_flag t FL, t_flag t FO, t_cc t 8, t_cc t 9, t_cc t 18, t_in t, t_out t) = (15, 7, 15, 3, 255, 99, 38400, 9600)
  | _ => False end /\
  parse_modes bsd (Some t2) [1; 0; 0; 0] = PFatal /\ parse_modes bsd (Some t2) [1; 0; 0; 0; 7; 0; 1] = PNone.
Proof. splits; vm_compute; reflexivity. Qed.
