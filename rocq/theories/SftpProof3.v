(** The handle table refines a finite map. *)
From Coq Require Import String.
From Verif Require Import Base SshbufModel SshbufSpec WireSpec WireProof Dec Text MatchModel MatchSpec MatchProof.
From Verif Require Import SftpModel SftpSpec SftpProof SftpProof2.

(** * The objects behind handle numbers *)
Definition obj_of (h : handle) : option obj :=
  match h_use h with HUnused => None | HFile => Some (OFile (h_fd h) (h_flags h) (h_name h)) | HDir => Some (ODir (h_dirp h) (h_name h)) end.
Definition obj_in (hs : list handle) (i : Z) : option obj := match hget hs i with Some h => obj_of h | None => None end.
Definition obj_at (st : state) (i : Z) : option obj := obj_in (s_handles st) i.
Definition abs (st : state) : table := fun s => if zlen s =? 4 then obj_at st (i32 (be_dec s)) else None.

Lemma hget_range : forall hs i h, hget hs i = Some h -> 0 <= i < zlen hs.
Proof.
  intros hs i h H. unfold hget in H. destruct (i <? 0) eqn:E; [discriminate|]. assert (nth_error hs (Z.to_nat i) <> None) by congruence.
  apply nth_error_Some in H0. unfold zlen. lia.
Qed.
Lemma hget_some : forall hs i, 0 <= i < zlen hs -> exists h, hget hs i = Some h.
Proof.
  intros hs i H. unfold hget. destruct (i <? 0) eqn:E; [lia|]. destruct (nth_error hs (Z.to_nat i)) as [h|] eqn:En; [eauto|].
  apply nth_error_None in En. unfold zlen in H. lia.
Qed.
Lemma upd_length : forall A (l : list A) n x, length (upd l n x) = length l.
Proof. induction l as [|a l IH]; intros [|n] x; cbn; congruence. Qed.
Lemma upd_nth : forall A (l : list A) n x m, nth_error (upd l n x) m = if (m =? n)%nat then (if (n <? length l)%nat then Some x else None) else nth_error l m.
Proof.
  induction l as [|a l IH]; intros n x m.
  - cbn [upd length]. destruct (m =? n)%nat; destruct m; reflexivity.
  - destruct n as [|n]; destruct m as [|m]; cbn [upd nth_error length]; try reflexivity. rewrite IH. cbn [Nat.eqb]. destruct (m =? n)%nat; [|reflexivity].
    destruct (n <? length l)%nat eqn:E1, (S n <? S (length l))%nat eqn:E2; try reflexivity; rewrite ?Nat.ltb_lt, ?Nat.ltb_ge in *; lia.
Qed.
Lemma hget_upd : forall hs i x j, 0 <= i < zlen hs -> hget (upd hs (Z.to_nat i) x) j = if j =? i then Some x else hget hs j.
Proof.
  intros hs i x j Hi. unfold hget. destruct (j <? 0) eqn:Ej; [replace (j =? i) with false by lia; reflexivity|].
  rewrite upd_nth. destruct (j =? i) eqn:E.
  - replace (Z.to_nat j =? Z.to_nat i)%nat with true by (symmetry; apply Nat.eqb_eq; lia).
    replace (Z.to_nat i <? length hs)%nat with true; [reflexivity|]. symmetry. apply Nat.ltb_lt. unfold zlen in Hi. lia.
  - replace (Z.to_nat j =? Z.to_nat i)%nat with false; [reflexivity|]. symmetry. apply Nat.eqb_neq. lia.
Qed.
Lemma hget_app : forall hs x j, hget (hs ++ [x]) j = if j =? zlen hs then Some x else hget hs j.
Proof.
  intros hs x j. unfold hget. pose proof (zlen_nonneg _ hs). destruct (j <? 0) eqn:Ej; [replace (j =? zlen hs) with false by lia; reflexivity|].
  destruct (j =? zlen hs) eqn:E.
  - rewrite nth_error_app2; unfold zlen in E; [|lia]. replace (Z.to_nat j - length hs)%nat with O by lia. reflexivity.
  - destruct (j <? zlen hs) eqn:E2; unfold zlen in *.
    + now rewrite nth_error_app1 by lia.
    + rewrite (proj2 (nth_error_None (hs ++ [x]) (Z.to_nat j))), (proj2 (nth_error_None hs (Z.to_nat j))); [reflexivity|lia|].
      rewrite app_length. cbn. lia.
Qed.

Lemma is_ok_file : forall i st, handle_is_ok i HFile st = match obj_at st i with Some (OFile _ _ _) => true | _ => false end.
Proof.
  intros i st. unfold handle_is_ok, obj_at, obj_in, obj_of. destruct (hget (s_handles st) i) as [h|] eqn:E; [|now rewrite andb_false_r].
  apply hget_range in E. replace (0 <=? i) with true by lia. replace (i <? zlen (s_handles st)) with true by lia. cbn [andb]. now destruct (h_use h).
Qed.
Lemma is_ok_dir : forall i st, handle_is_ok i HDir st = match obj_at st i with Some (ODir _ _) => true | _ => false end.
Proof.
  intros i st. unfold handle_is_ok, obj_at, obj_in, obj_of. destruct (hget (s_handles st) i) as [h|] eqn:E; [|now rewrite andb_false_r].
  apply hget_range in E. replace (0 <=? i) with true by lia. replace (i <? zlen (s_handles st)) with true by lia. cbn [andb]. now destruct (h_use h).
Qed.
Lemma to_fd_at : forall i st, handle_to_fd i st = match obj_at st i with Some (OFile fd _ _) => fd | _ => -1 end.
Proof.
  intros i st. unfold handle_to_fd. rewrite is_ok_file. unfold obj_at, obj_in, obj_of. destruct (hget (s_handles st) i) as [h|]; [|reflexivity]. now destruct (h_use h).
Qed.
Lemma to_flags_at : forall i st, handle_to_flags i st = match obj_at st i with Some (OFile _ fl _) => fl | _ => 0 end.
Proof.
  intros i st. unfold handle_to_flags. rewrite is_ok_file. unfold obj_at, obj_in, obj_of. destruct (hget (s_handles st) i) as [h|]; [|reflexivity]. now destruct (h_use h).
Qed.
Lemma to_dir_at : forall i st, handle_to_dir i st = match obj_at st i with Some (ODir d _) => Some d | _ => None end.
Proof.
  intros i st. unfold handle_to_dir. rewrite is_ok_dir. unfold obj_at, obj_in, obj_of. destruct (hget (s_handles st) i) as [h|]; [|reflexivity]. now destruct (h_use h).
Qed.
Lemma to_name_at : forall i st, handle_to_name i st = match obj_at st i with Some (ODir _ n) => Some n | Some (OFile _ _ n) => Some n | None => None end.
Proof.
  intros i st. unfold handle_to_name. rewrite is_ok_dir, is_ok_file. unfold obj_at, obj_in, obj_of. destruct (hget (s_handles st) i) as [h|]; [|reflexivity]. now destruct (h_use h).
Qed.
Lemma at_neg : forall i st, i < 0 -> obj_at st i = None.
Proof. intros i st H. unfold obj_at, obj_in, hget. now replace (i <? 0) with true by lia. Qed.
Lemma from_string_at : forall s st, obj_at st (handle_from_string s st) = abs st s.
Proof.
  intros s st. unfold handle_from_string, abs. destruct (zlen s =? 4); cbn [negb]; [|now apply at_neg].
  cbv zeta. rewrite is_ok_file, is_ok_dir. destruct (obj_at st (i32 (be_dec s))) as [[]|] eqn:E; cbn [orb]; try assumption. now apply at_neg.
Qed.
Lemma get_handle_at : forall st h st', get_handle st = Go h st' -> exists s l, get_str (s_in st) = Some (s, l) /\ st' = set_in l st /\ obj_at st h = abs st s.
Proof.
  intros st h st' H. unfold get_handle in H. destruct (get_str (s_in st)) as [[s l]|] eqn:E; [|discriminate]. injection H as <- <-.
  exists s, l. splits; try reflexivity. destruct (zlen s <? 256) eqn:E2; [apply from_string_at|]. rewrite at_neg by lia. unfold abs. now replace (zlen s =? 4) with false by lia.
Qed.

(** Handle strings and numbers. *)
Lemma string_number : forall i, 0 <= i < 2147483648 -> zlen (handle_to_string i) = 4 /\ i32 (be_dec (handle_to_string i)) = i /\ is_bytes (handle_to_string i).
Proof.
  intros i Hi. unfold handle_to_string. rewrite u32_id by (unfold U32; lia). splits; [apply zlen_be_enc| |apply be_enc_bytes].
  rewrite be_dec_enc_id by (change (256 ^ Z.of_nat 4) with 4294967296; lia). unfold i32. cbv zeta. rewrite u32_id by (unfold U32; lia). now replace (i <? 2147483648) with true by lia.
Qed.
Lemma number_string : forall s, is_bytes s -> zlen s = 4 -> 0 <= i32 (be_dec s) -> s = handle_to_string (i32 (be_dec s)).
Proof.
  intros s Hb Hl Hi. pose proof (be_dec_bound _ Hb) as B. rewrite Hl in B. change (256 ^ 4) with 4294967296 in B.
  unfold i32 in *. cbv zeta in *. rewrite u32_id in * by (unfold U32; lia). destruct (be_dec s <? 2147483648) eqn:E; [|lia].
  unfold handle_to_string. rewrite u32_id by (unfold U32; lia). replace 4%nat with (length s) by (unfold zlen in Hl; lia). now rewrite be_enc_dec.
Qed.

Lemma abs_add : forall st st' i o, 0 <= i < 2147483648 -> (forall j, obj_at st' j = if j =? i then Some o else obj_at st j) ->
  same_table (abs st') (add (abs st) (handle_to_string i) o).
Proof.
  intros st st' i o Hi H s Hb. unfold abs, add. destruct (string_number i Hi) as (L & N & _).
  destruct (beqb s (handle_to_string i)) eqn:E.
  - apply beqb_eq in E. subst s. rewrite L, N, H. cbn. now rewrite Z.eqb_refl.
  - apply beqb_neq in E. destruct (zlen s =? 4) eqn:E4; [|reflexivity]. rewrite H. destruct (i32 (be_dec s) =? i) eqn:Ei; [|reflexivity].
    exfalso. apply E. assert (K : i32 (be_dec s) = i) by lia. rewrite <- K. apply number_string; [assumption|lia|lia].
Qed.
Lemma abs_remove : forall st st' s, is_bytes s -> abs st s <> None -> (forall j, obj_at st' j = if j =? i32 (be_dec s) then None else obj_at st j) ->
  same_table (abs st') (remove (abs st) s).
Proof.
  intros st st' s Hs Hn H x Hb. unfold remove. destruct (beqb x s) eqn:E.
  - apply beqb_eq in E. subst x. unfold abs. destruct (zlen s =? 4); [|reflexivity]. rewrite H. now rewrite Z.eqb_refl.
  - apply beqb_neq in E. unfold abs in *. destruct (zlen x =? 4) eqn:E4; [|reflexivity]. rewrite H. destruct (i32 (be_dec x) =? i32 (be_dec s)) eqn:Ei; [|reflexivity].
    destruct (zlen s =? 4) eqn:E4'; [|congruence]. exfalso. apply E.
    assert (0 <= i32 (be_dec s)) by (destruct (Z.ltb_spec (i32 (be_dec s)) 0) as [L|L]; [rewrite at_neg in Hn by assumption; congruence|assumption]).
    assert (K : i32 (be_dec x) = i32 (be_dec s)) by lia. rewrite (number_string x), (number_string s), K; [reflexivity|assumption|lia|lia|assumption|lia|lia].
Qed.
Lemma abs_same : forall st st', (forall j, obj_at st' j = obj_at st j) -> same_table (abs st') (abs st).
Proof. intros st st' H s Hb. unfold abs. destruct (zlen s =? 4); [apply H|reflexivity]. Qed.

(** * The free list *)
Fixpoint linked (hs : list handle) (first : Z) (ch : list Z) : Prop :=
  match ch with
  | [] => first = -1
  | c :: t => first = c /\ exists h, hget hs c = Some h /\ linked hs (h_next h) t
  end.
Definition inv (k : Z) (st : state) : Prop := exists ch,
  linked (s_handles st) (s_first st) ch /\ NoDup ch /\ (forall i, In i ch -> 0 <= i < zlen (s_handles st)) /\
  (forall i h, hget (s_handles st) i = Some h -> (h_use h = HUnused <-> In i ch)) /\
  zlen (s_handles st) = zlen ch + k /\ zlen (s_handles st) <= 2147483648.

Ltac split6 := split; [|split; [|split; [|split; [|split]]]].

Lemma linked_upd : forall hs i x ch first, 0 <= i < zlen hs -> ~ In i ch -> linked hs first ch -> linked (upd hs (Z.to_nat i) x) first ch.
Proof.
  intros hs i x ch. induction ch as [|c t IH]; intros first Hi Hn H; [exact H|]. destruct H as [-> (h & Hh & Hl)]. cbn [linked]. split; [reflexivity|].
  exists h. split; [|apply IH; auto; intros K; apply Hn; now right]. rewrite hget_upd by assumption. destruct (c =? i) eqn:E; [|assumption]. exfalso. apply Hn. left. lia.
Qed.
Lemma linked_app : forall hs x ch first, linked hs first ch -> linked (hs ++ [x]) first ch.
Proof.
  intros hs x ch. induction ch as [|c t IH]; intros first H; [exact H|]. destruct H as [-> (h & Hh & Hl)]. cbn [linked]. split; [reflexivity|].
  exists h. split; [|now apply IH]. rewrite hget_app. destruct (c =? zlen hs) eqn:E; [|assumption]. apply hget_range in Hh. lia.
Qed.

Lemma start_inv : forall env, inv 0 (start env).
Proof.
  intros env. exists []. split; [reflexivity|]. split; [constructor|]. split; [intros i []|]. split; [|split; [reflexivity|cbn; unfold zlen; cbn; lia]].
  intros i h H. exfalso. apply hget_range in H. cbn in H. unfold zlen in H. cbn in H. lia.
Qed.

Definition same_rest (st st' : state) : Prop := s_in st' = s_in st /\ s_out st' = s_out st /\ s_calls st' = s_calls st /\ s_env st' = s_env st /\ s_version st' = s_version st /\ s_init st' = s_init st.

Lemma handle_new_spec : forall k st u name fd flags dirp, inv k st -> u <> HUnused -> k < 2147483648 ->
  exists i st', handle_new u name fd flags dirp st = Go i st' /\ 0 <= i < 2147483648 /\ obj_at st i = None /\ same_rest st st' /\
    (forall j, obj_at st' j = if j =? i then obj_of (mkHandle u dirp fd flags name 0 0 0) else obj_at st j) /\ inv (k + 1) st'.
Proof.
  intros k st u name fd flags dirp (ch & Hl & Hnd & Hr & Hu & Hk & Hm) Hne Hlim. unfold handle_new. cbv zeta.
  pose proof (zlen_nonneg _ (s_handles st)) as Z0. destruct (s_first st =? -1) eqn:E1.
  - assert (ch = []) as ->. { destruct ch as [|c t]; [reflexivity|]. destruct Hl as [Hc _]. pose proof (Hr c (or_introl eq_refl)). lia. }
    rewrite zlen_nil in Hk. set (n := zlen (s_handles st)) in *. rewrite u32_id by (unfold U32; lia). replace (n + 1 <=? n) with false by lia.
    assert (Hn : i32 n = n) by (unfold i32; cbv zeta; rewrite u32_id by (unfold U32; lia); now replace (n <? 2147483648) with true by lia). rewrite Hn.
    unfold handle_unused. cbn [s_handles set_handles]. rewrite hget_app. fold n. rewrite Z.eqb_refl. cbn [s_first set_handles s_handles].
    set (hs1 := s_handles st ++ [mkHandle HUnused 0 0 0 [] 0 0 0]).
    assert (L1 : zlen hs1 = n + 1) by (unfold hs1; rewrite zlen_app; reflexivity).
    rewrite hget_upd by lia. rewrite Z.eqb_refl. cbn [h_next]. eexists n, _. split; [reflexivity|]. split; [lia|].
    split; [unfold obj_at, obj_in; destruct (hget (s_handles st) n) eqn:G; [apply hget_range in G; lia|reflexivity]|].
    split; [unfold same_rest; cbn; auto 10|]. cbn [set_handles s_handles s_first].
    assert (G : forall j, hget (upd (upd hs1 (Z.to_nat n) (mkHandle HUnused 0 0 0 [] 0 0 (s_first st))) (Z.to_nat n) (mkHandle u dirp fd flags name 0 0 (s_first st))) j =
                if j =? n then Some (mkHandle u dirp fd flags name 0 0 (s_first st)) else hget (s_handles st) j).
    { intros j. rewrite hget_upd by (unfold zlen in *; rewrite upd_length; lia). destruct (j =? n) eqn:Ej; [reflexivity|]. rewrite hget_upd by lia. rewrite Ej. unfold hs1. rewrite hget_app. fold n. now rewrite Ej. }
    split.
    + intros j. unfold obj_at, obj_in. cbn [s_handles set_handles]. rewrite G. destruct (j =? n); reflexivity.
    + exists []. cbn [set_handles s_handles s_first]. split6.
      * cbn. lia.
      * constructor.
      * intros i [].
      * intros i h. rewrite G. destruct (i =? n) eqn:Ei; intros Hh; [injection Hh as <-; cbn [h_use]; split; [congruence|intros []]|now apply Hu].
      * unfold zlen in *. rewrite !upd_length. cbn. lia.
      * unfold zlen in *. rewrite !upd_length. lia.
  - destruct ch as [|c t]; [cbn in Hl; lia|]. destruct Hl as [Hc (h & Hh & Hl)]. rewrite Hc, Hh.
    pose proof (hget_range _ _ _ Hh) as Rc. apply NoDup_cons_iff in Hnd. destruct Hnd as [Hnin Hnd'].
    eexists c, _. split; [reflexivity|]. split; [lia|].
    split; [unfold obj_at, obj_in; rewrite Hh; unfold obj_of; rewrite (proj2 (Hu _ _ Hh) (or_introl eq_refl)); reflexivity|].
    split; [unfold same_rest; cbn; auto 10|]. cbn [set_handles s_handles s_first].
    split.
    + intros j. unfold obj_at, obj_in. cbn [s_handles set_handles]. rewrite hget_upd by assumption. destruct (j =? c); reflexivity.
    + exists t. cbn [set_handles s_handles s_first]. split6.
      * now apply linked_upd.
      * assumption.
      * intros i Hi. unfold zlen. rewrite upd_length. apply Hr. now right.
      * intros i h'. rewrite hget_upd by assumption. destruct (i =? c) eqn:Ei; intros Hh'.
        { injection Hh' as <-. cbn [h_use]. split; [congruence|]. intros K. exfalso. apply Hnin. replace c with i by lia. assumption. }
        { rewrite (Hu _ _ Hh'). cbn [In]. split; [intros [K|K]; [lia|assumption]|auto]. }
      * unfold zlen in *. rewrite upd_length. cbn [length] in Hk. lia.
      * unfold zlen in *. rewrite upd_length. lia.
Qed.

Lemma handle_unused_spec : forall k st i o, inv k st -> obj_at st i = Some o ->
  exists st', handle_unused i st = Go tt st' /\ same_rest st st' /\ (forall j, obj_at st' j = if j =? i then None else obj_at st j) /\ inv (k - 1) st'.
Proof.
  intros k st i o (ch & Hl & Hnd & Hr & Hu & Hk & Hm) Ho. unfold obj_at, obj_in in Ho. destruct (hget (s_handles st) i) as [h|] eqn:E; [|discriminate].
  pose proof (hget_range _ _ _ E) as Ri. unfold handle_unused. rewrite E. eexists. split; [reflexivity|]. split; [unfold same_rest; cbn; auto 10|].
  assert (Ni : ~ In i ch). { intros K. apply (Hu _ _ E) in K. unfold obj_of in Ho. now rewrite K in Ho. }
  split.
  - intros j. unfold obj_at, obj_in. cbn [s_handles set_handles]. rewrite hget_upd by assumption. destruct (j =? i); reflexivity.
  - exists (i :: ch). cbn [set_handles s_handles s_first]. split6.
    + cbn [linked]. split; [reflexivity|]. eexists. rewrite hget_upd by assumption. rewrite Z.eqb_refl. split; [reflexivity|]. cbn [h_next]. now apply linked_upd.
    + now constructor.
    + intros j [<- |Hj]; unfold zlen; rewrite upd_length; [assumption|now apply Hr].
    + intros j h'. rewrite hget_upd by assumption. destruct (j =? i) eqn:Ej; intros Hh'.
      * injection Hh' as <-. cbn [h_use In]. split; [left; lia|reflexivity].
      * rewrite (Hu _ _ Hh'). cbn [In]. split; [auto|]. intros [K|K]; [lia|assumption].
    + unfold zlen in *. rewrite upd_length. cbn [length]. lia.
    + unfold zlen in *. rewrite upd_length. lia.
Qed.

(** * Computations that leave the table alone *)
Definition core (h : handle) := (h_use h, h_dirp h, h_fd h, h_flags h, h_name h, h_next h).
Definition hsame (st st' : state) : Prop := s_first st' = s_first st /\ map core (s_handles st') = map core (s_handles st).
Lemma hsame_refl : forall st, hsame st st. Proof. intros st. now split. Qed.
Lemma hsame_trans : forall a b c, hsame a b -> hsame b c -> hsame a c. Proof. intros a b c [H1 H2] [H3 H4]. split; congruence. Qed.
Lemma hsame_hget : forall st st' i, hsame st st' -> option_map core (hget (s_handles st') i) = option_map core (hget (s_handles st) i).
Proof.
  intros st st' i [_ H]. unfold hget. destruct (i <? 0); [reflexivity|]. rewrite <- !nth_error_map. now rewrite H.
Qed.
Lemma hsame_at : forall st st' i, hsame st st' -> obj_at st' i = obj_at st i.
Proof.
  intros st st' i H. apply (hsame_hget _ _ i) in H. unfold obj_at, obj_in. destruct (hget (s_handles st') i) as [a|], (hget (s_handles st) i) as [b|]; cbn in H; try discriminate; [|reflexivity].
  injection H as E1 E2 E3 E4 E5 E6. unfold obj_of. now rewrite E1, E2, E3, E4, E5.
Qed.
Lemma hsame_zlen : forall st st', hsame st st' -> zlen (s_handles st') = zlen (s_handles st).
Proof. intros st st' [_ H]. apply (f_equal (@length _)) in H. rewrite !map_length in H. unfold zlen. now rewrite H. Qed.
Lemma hsame_linked : forall st st' ch first, hsame st st' -> linked (s_handles st) first ch -> linked (s_handles st') first ch.
Proof.
  intros st st' ch. induction ch as [|c t IH]; intros first H Hl; [exact Hl|]. destruct Hl as [-> (h & Hh & Hl)]. cbn [linked]. split; [reflexivity|].
  pose proof (hsame_hget _ _ c H) as K. rewrite Hh in K. destruct (hget (s_handles st') c) as [h'|]; [|discriminate]. cbn in K. injection K as E1 E2 E3 E4 E5 E6.
  exists h'. split; [reflexivity|]. rewrite E6. now apply IH.
Qed.
Lemma hsame_inv : forall k st st', hsame st st' -> inv k st -> inv k st'.
Proof.
  intros k st st' H (ch & Hl & Hnd & Hr & Hu & Hk & Hm). exists ch. rewrite (hsame_zlen _ _ H), (proj1 H). split6; auto.
  - now apply (hsame_linked st).
  - intros i h Hh. pose proof (hsame_hget _ _ i H) as K. rewrite Hh in K. destruct (hget (s_handles st) i) as [h'|] eqn:E; [|discriminate]. cbn in K. injection K as E1 E2 E3 E4 E5 E6.
    rewrite E1. now apply Hu.
Qed.

Definition eff {A} (K : state -> Prop) (P : call -> Prop) (R : reply -> Prop) (m : M A) : Prop := forall st, K st ->
  exists cs rs, s_calls (final (m st)) = s_calls st ++ cs /\ s_out (final (m st)) = s_out st ++ rs /\
    Forall (fun c => P (fst c)) cs /\ Forall R rs /\ hsame st (final (m st)).
Definition stable (K : state -> Prop) : Prop := forall st st', hsame st st' -> K st -> K st'.

Section Eff.
  Variables (K : state -> Prop) (P : call -> Prop) (R : reply -> Prop).
  Hypothesis HK : stable K.
  Lemma eff_nothing : forall A (m : M A), (forall st, s_calls (final (m st)) = s_calls st /\ s_out (final (m st)) = s_out st /\ hsame st (final (m st))) -> eff K P R m.
  Proof. intros A m H st _. destruct (H st) as (H1 & H2 & H3). exists [], []. rewrite !app_nil_r. auto 10. Qed.
  Lemma eff_bind : forall A B (m : M A) (f : A -> M B), eff K P R m -> (forall a, eff K P R (f a)) -> eff K P R (bind m f).
  Proof.
    intros A B m f Hm Hf st Hs. unfold bind. destruct (Hm st Hs) as (cs & rs & H1 & H2 & H3 & H4 & H5). destruct (m st) as [a st'|h st']; cbn [final] in *.
    - destruct (Hf a st' (HK _ _ H5 Hs)) as (cs' & rs' & G1 & G2 & G3 & G4 & G5). exists (cs ++ cs'), (rs ++ rs'). rewrite G1, H1, G2, H2, !app_assoc.
      splits; auto; try (now apply Forall_app). eapply hsame_trans; eauto.
    - exists cs, rs. auto 10.
  Qed.
  Lemma eff_look : forall A B (g : state -> A) (f : A -> M B), (forall st, K st -> eff K P R (f (g st))) -> eff K P R (bind (look g) f).
  Proof. intros A B g f H st Hs. unfold bind, look. apply (H st Hs st Hs). Qed.
  Lemma eff_ret : forall A (a : A), eff K P R (ret a). Proof. intros. apply eff_nothing. intros st. cbn. auto using hsame_refl. Qed.
  Lemma eff_stop : forall A h, eff K P R (@stop A h). Proof. intros. apply eff_nothing. intros st. cbn. auto using hsame_refl. Qed.
  Lemma eff_send : forall r, R r -> eff K P R (send r).
  Proof. intros r Hr st _. exists [], [r]. cbn. rewrite app_nil_r. splits; auto. now split. Qed.
  Lemma eff_parse : forall A (f : list Z -> option (A * list Z)), eff K P R (parse f).
  Proof. intros A f. apply eff_nothing. intros st. unfold parse. destruct (f (s_in st)) as [[? ?]|]; cbn; splits; auto; now split. Qed.
  Lemma eff_get_handle : eff K P R get_handle.
  Proof. apply eff_nothing. intros st. unfold get_handle. destruct (get_str (s_in st)) as [[? ?]|]; cbn; splits; auto; now split. Qed.
  Lemma eff_sys : forall c, P c -> eff K P R (sys c).
  Proof.
    intros c Hc st _. unfold sys. destruct (s_env st) as [|r env]; cbn [final add_calls s_calls s_out]; eexists _, []; (split; [reflexivity|]); (split; [now rewrite app_nil_r|]); splits; auto; now split.
  Qed.
  Lemma eff_attr : forall b c s, (b = true -> P c) -> eff K P R (attr_call b c s).
  Proof. intros b c s H. unfold attr_call. destruct b; [|apply eff_ret]. apply eff_bind; [apply eff_sys; auto|intros; apply eff_ret]. Qed.
  Lemma map_core_upd : forall hs n h h', nth_error hs n = Some h -> core h' = core h -> map core (upd hs n h') = map core hs.
  Proof. induction hs as [|a hs IH]; intros [|n] h h' H E; cbn in *; try discriminate; [injection H as ->; now rewrite E|]. f_equal. eauto. Qed.
  Lemma eff_update : forall w i n, eff K P R (handle_update w i n).
  Proof.
    intros w i n. apply eff_nothing. intros st. unfold handle_update. destruct (_ && _); [|cbn; splits; auto; now split].
    destruct (hget (s_handles st) i) as [h|] eqn:E; [|cbn; splits; auto; now split]. cbn [final set_handles s_calls s_out]. splits; try reflexivity.
    split; [reflexivity|]. cbn [s_handles set_handles]. unfold hget in E. destruct (i <? 0); [discriminate|]. eapply map_core_upd; [exact E|]. now destruct w.
  Qed.
  Lemma eff_readdir : forall cf id d path, P (CReaddir d) -> (forall p, P (CLstat p)) -> (forall ns, R (RNames id ns)) -> R (RStatus id FX_EOF (status_to_message FX_EOF)) ->
    eff K P R (fun st =>
      match readdir_loop cf d path 0 (s_env st) [] [] with
      | (None, calls, env) => Halt HBlocked (add_calls calls env st)
      | (Some names, calls, env) =>
          (if zlen names >? 0 then send (RNames id names) else send_status id FX_EOF) (add_calls calls env st)
      end).
  Proof.
    intros cf id d path H1 H2 H3 H4 st _. destruct (readdir_loop cf d path 0 (s_env st) [] []) as [[o cs] env'] eqn:E.
    destruct (readdir_loop_calls P cf d path H1 H2 _ _ _ _ _ _ _ _ (le_n _) E) as (new & -> & Hf). cbn [app] in *.
    destruct o as [names|]; [destruct (zlen names >? 0)|]; cbn; eexists _, _; (split; [reflexivity|]); (split; [reflexivity || now rewrite app_nil_r|]); splits; auto; now split.
  Qed.
  Lemma eff_copy : forall id rh wh rfd wfd eof rlen, (forall n, P (CReadFull rfd n)) -> (forall x, P (CWriteFull wfd x)) -> (forall s t, R (RStatus id s t)) ->
    eff K P R (fun st =>
    match copy_loop rfd wfd eof rlen FX_OP_UNSUPPORTED (s_env st) 0 0 [] with
    | (None, rd, wr, calls, env) => Halt HBlocked (add_calls calls env st)
    | (Some (todo, status), rd, wr, calls, env) =>
        (run handle_update false rh rd; run handle_update true wh wr;
         send_status id (if todo =? 0 then FX_OK else status)) (add_calls calls env st)
    end).
  Proof.
    intros id rh wh rfd wfd eof rlen H1 H2 H3 st Hs. destruct (copy_loop _ _ _ _ _ _ _ _ _) as [[[[o rd] wr] cs] env'] eqn:E.
    destruct (copy_loop_calls P rfd wfd eof H1 H2 _ _ _ _ _ _ _ _ _ _ _ _ (le_n _) E) as (new & -> & Hf). cbn [app] in *.
    destruct o as [[todo status]|].
    - match goal with |- context [final (?m ?s)] => assert (O : eff K P R m) end.
      { apply eff_bind; [apply eff_update|]. intros _. apply eff_bind; [apply eff_update|]. intros _. apply eff_send. apply H3. }
      assert (H0 : hsame st (add_calls new env' st)) by now split.
      destruct (O _ (HK _ _ H0 Hs)) as (cs & rs & G1 & G2 & G3 & G4 & G5). exists (new ++ cs), rs. rewrite G1, G2. cbn [add_calls s_calls s_out]. rewrite app_assoc.
      splits; auto; now apply Forall_app.
    - cbn. eexists _, []. split; [reflexivity|]. rewrite app_nil_r. splits; auto. now split.
  Qed.
  Lemma eff_names : forall mk, (forall n, P (mk n)) -> forall n ids acc, (length ids <= n)%nat -> eff K P R (names_of mk ids acc).
  Proof.
    intros mk H. induction n as [|n IH]; intros ids acc Hn.
    - destruct ids; [apply eff_ret|cbn in Hn; lia].
    - destruct ids as [|a [|b [|c [|d r]]]]; cbn [names_of]; try apply eff_ret; try apply eff_stop.
      apply eff_bind; [apply eff_sys, H|]. intros x. apply IH. cbn in Hn. lia.
  Qed.
End Eff.
