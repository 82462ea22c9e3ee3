From Coq Require Import Permutation.
From Verif Require Import Base SshbufModel SshbufSpec SshbufProof WireSpec WireProof Dec SclientModel SclientSpec.
Local Open Scope Z_scope.

(** * Files *)
Definition byte_at (f : list Z) (i : Z) : Z := nth (Z.to_nat i) f 0.
Lemma byte_app : forall a b i, 0 <= i -> byte_at (a ++ b) i = if i <? zlen a then byte_at a i else byte_at b (i - zlen a).
Proof.
  intros a b i H. unfold byte_at. destruct (i <? zlen a) eqn:E; unfold zlen in *; [rewrite app_nth1 by lia; reflexivity|]. rewrite app_nth2 by lia. f_equal. lia.
Qed.
Lemma byte_past : forall f i, zlen f <= i -> byte_at f i = 0.
Proof. intros f i H. unfold byte_at. apply nth_overflow. unfold zlen in H. lia. Qed.
Lemma nth_firstn : forall (l : list Z) n i d, (i < n)%nat -> nth i (firstn n l) d = nth i l d.
Proof. induction l as [|x l IH]; intros [|n] [|i] d H; cbn; try lia; try reflexivity. apply IH. lia. Qed.
Lemma nth_skipn : forall (l : list Z) n i d, nth i (skipn n l) d = nth (n + i) l d.
Proof. induction l as [|x l IH]; intros [|n] i d; cbn; try reflexivity; [now destruct i|]. apply IH. Qed.
Lemma byte_take : forall f n i, 0 <= i < n -> byte_at (ztake n f) i = byte_at f i.
Proof. intros f n i H. unfold byte_at, ztake. apply nth_firstn. lia. Qed.
Lemma byte_drop : forall f n i, 0 <= n -> 0 <= i -> byte_at (zdrop n f) i = byte_at f (n + i).
Proof. intros f n i H1 H2. unfold byte_at, zdrop. rewrite nth_skipn. f_equal. lia. Qed.
Lemma byte_zeros : forall n i, byte_at (zeros n) i = 0.
Proof. intros n i. unfold byte_at, zeros. apply nth_repeat. Qed.
Lemma zlen_zeros : forall n, zlen (zeros n) = Z.max 0 n.
Proof. intros n. unfold zlen, zeros. rewrite repeat_length. lia. Qed.
Lemma take_len : forall A (l : list A) n, 0 <= n -> zlen (ztake n l) = Z.min n (zlen l).
Proof. intros A l n H. unfold zlen, ztake. rewrite firstn_length. lia. Qed.
Lemma drop_len : forall A (l : list A) n, 0 <= n -> zlen (zdrop n l) = Z.max 0 (zlen l - n).
Proof. intros A l n H. unfold zlen, zdrop. rewrite skipn_length. lia. Qed.
Lemma bytes_eq : forall a b, zlen a = zlen b -> (forall i, 0 <= i < zlen a -> byte_at a i = byte_at b i) -> a = b.
Proof.
  intros a b L H. apply (nth_ext a b 0 0); [unfold zlen in L; lia|]. intros n Hn. specialize (H (Z.of_nat n)). unfold byte_at in H. rewrite Nat2Z.id in H. apply H. unfold zlen. lia.
Qed.
Lemma write_len : forall f off d, 0 <= off -> zlen (write_at f off d) = if zlen d =? 0 then zlen f else Z.max (zlen f) (off + zlen d).
Proof.
  intros f off d H. unfold write_at. destruct d as [|x d]; [reflexivity|]. pose proof (zlen_nonneg _ d). pose proof (zlen_nonneg _ f). rewrite (zlen_cons _ x d). replace (zlen d + 1 =? 0) with false by lia. rewrite !zlen_app, take_len, zlen_app, zlen_zeros, drop_len, !zlen_cons by (rewrite ?zlen_cons; lia). lia.
Qed.
Lemma write_byte : forall f off d i, 0 <= off -> 0 <= i -> byte_at (write_at f off d) i = if (off <=? i) && (i <? off + zlen d) then byte_at d (i - off) else byte_at f i.
Proof.
  intros f off d i Ho Hi. unfold write_at. destruct d as [|x d].
  - rewrite zlen_nil. destruct ((off <=? i) && (i <? off + 0)) eqn:E; [lia|reflexivity].
  - set (dd := x :: d). assert (Hd : 0 < zlen dd) by (unfold dd; rewrite zlen_cons; pose proof (zlen_nonneg _ d); lia). pose proof (zlen_nonneg _ f). assert (L1 : zlen (ztake off (f ++ zeros (off - zlen f))) = off) by (rewrite take_len, zlen_app, zlen_zeros by lia; lia).
    rewrite byte_app, L1 by lia. destruct (i <? off) eqn:E1.
    + replace (off <=? i) with false by lia. cbn [andb]. rewrite byte_take by lia. rewrite byte_app by lia. destruct (i <? zlen f) eqn:E2; [reflexivity|]. rewrite byte_zeros. symmetry. apply byte_past. lia.
    + replace (off <=? i) with true by lia. cbn [andb]. rewrite byte_app by lia. replace (i - off <? zlen dd) with (i <? off + zlen dd) by lia. destruct (i <? off + zlen dd) eqn:E3; [reflexivity|]. rewrite byte_drop by lia. f_equal. lia.
Qed.
Lemma trunc_len : forall f n, 0 <= n -> zlen (truncate_to f n) = n.
Proof. intros f n H. unfold truncate_to. pose proof (zlen_nonneg _ f). rewrite take_len, zlen_app, zlen_zeros by lia. lia. Qed.
Lemma trunc_byte : forall f n i, 0 <= i < n -> byte_at (truncate_to f n) i = byte_at f i.
Proof. intros f n i H. unfold truncate_to. rewrite byte_take, byte_app by lia. destruct (i <? zlen f) eqn:E; [reflexivity|]. rewrite byte_zeros. symmetry. apply byte_past. lia. Qed.
Lemma part_len : forall F off n, 0 <= off -> 0 <= n -> zlen (part F off n) = Z.min n (Z.max 0 (zlen F - off)).
Proof. intros F off n H1 H2. unfold part. now rewrite take_len, drop_len by lia. Qed.
Lemma part_byte : forall F off n i, 0 <= off -> 0 <= i < n -> byte_at (part F off n) i = byte_at F (off + i).
Proof. intros F off n i H1 H2. unfold part. rewrite byte_take, byte_drop by lia. reflexivity. Qed.

(** * Counting *)
Lemma count_app : forall p a b, count p (a ++ b) = count p a + count p b.
Proof. intros. unfold count. now rewrite filter_app, zlen_app. Qed.
Lemma count_nonneg : forall p a, 0 <= count p a.
Proof. intros. apply zlen_nonneg. Qed.
Lemma count_one : forall p x, count p [x] = if p x then 1 else 0.
Proof. intros p x. unfold count. cbn [filter]. destruct (p x); reflexivity. Qed.

(** * Requests *)
Definition tup (r : req) : Z * Z * Z := (rq_id r, rq_off r, rq_len r).
Lemma find_split : forall l id r, request_find l id = Some r -> exists l1 l2, l = l1 ++ r :: l2 /\ rq_id r = id /\ request_remove l id = l1 ++ l2 /\ forall n, request_update l id n = l1 ++ n :: l2.
Proof.
  induction l as [|x l IH]; intros id r H; cbn [request_find] in H; [discriminate|]. destruct (rq_id x =? id) eqn:E; cbn [negb] in H.
  - injection H as ->. exists [], l. cbn [request_remove request_update app]. rewrite E. cbn [negb]. repeat split; try reflexivity. lia.
  - destruct (IH id r H) as (l1 & l2 & -> & Ei & Er & Eu). exists (x :: l1), l2. cbn [request_remove request_update app]. rewrite E. cbn [negb]. rewrite Er. repeat split; auto. intros n. now rewrite Eu.
Qed.
Lemma find_in : forall l r, NoDup (map rq_id l) -> In r l -> request_find l (rq_id r) = Some r.
Proof.
  induction l as [|x l IH]; intros r N H; [destruct H|]. cbn [request_find map] in *. apply NoDup_cons_iff in N. destruct N as [N1 N2]. destruct H as [-> |H]; [rewrite Z.eqb_refl; reflexivity|].
  destruct (rq_id x =? rq_id r) eqn:E; cbn [negb]; [|now apply IH]. exfalso. apply N1. apply Z.eqb_eq in E. rewrite E. now apply in_map.
Qed.

(** * The server *)
Lemma serves_snoc : forall h F tr x open, serves h F (tr ++ [x]) open ->
  match x with
  | TSend m => exists o id off len, open = o ++ [(id, off, len)] /\ serves h F tr o /\ asks h m id off len
  | TRecv m => exists o1 o2 id off len, open = o1 ++ o2 /\ serves h F tr (o1 ++ (id, off, len) :: o2) /\ truth F id off len m
  | TWrite _ _ _ => serves h F tr open
  end.
Proof.
  intros h F tr x open H. inversion H as [E|tr' o m id off len S A E|tr' o1 o2 m id off len S T E|tr' o off d w S E]; try (apply app_inj_tail in E; destruct E as [-> <-]).
  - destruct tr; discriminate.
  - exists o, id, off, len. auto.
  - exists o1, o2, id, off, len. auto.
  - exact S.
Qed.
Lemma serves_prefix : forall h F b a open, serves h F (a ++ b) open -> exists o, serves h F a o.
Proof.
  intros h F. induction b as [|x b IH] using rev_ind; intros a open H; [rewrite app_nil_r in H; eauto|]. rewrite app_assoc in H. apply serves_snoc in H. destruct x; [destruct H as (o & _ & _ & _ & _ & H & _)|destruct H as (o1 & o2 & id & off & len & _ & H & _)|]; eapply IH; eauto.
Qed.
Lemma honest_prefix : forall h F a b, honest h F (a ++ b) -> honest h F a.
Proof. intros h F a b (o & H). exact (serves_prefix h F b a o H). Qed.
Lemma be4 : forall a b r r', 0 <= a < 4294967296 -> 0 <= b < 4294967296 -> be_enc 4 a ++ r = be_enc 4 b ++ r' -> a = b /\ r = r'.
Proof.
  intros a b r r' Ha Hb E. pose proof (get_int_enc 4 a r Ha) as G1. rewrite E, (get_int_enc 4 b r' Hb) in G1. now injection G1 as -> ->.
Qed.
Lemma be8 : forall a b r r', 0 <= a < 18446744073709551616 -> 0 <= b < 18446744073709551616 -> be_enc 8 a ++ r = be_enc 8 b ++ r' -> a = b /\ r = r'.
Proof.
  intros a b r r' Ha Hb E. pose proof (get_int_enc 8 a r Ha) as G1. rewrite E, (get_int_enc 8 b r' Hb) in G1. now injection G1 as -> ->.
Qed.
Lemma asks_req : forall h r id off len, 0 <= rq_id r < 4294967296 -> 0 <= rq_off r < 18446744073709551616 -> 0 <= rq_len r < 4294967296 ->
  asks h (read_request h r) id off len -> (id, off, len) = tup r.
Proof.
  intros h r id off len H1 H2 H3 (E & I1 & I2 & I3). unfold read_request in E. rewrite (u32_id (rq_id r)), (u32_id (rq_len r)), (u64_id (rq_off r)) in E by (unfold U32, U64; lia). cbn [app] in E. apply (f_equal (@tl Z)) in E. cbn [tl] in E. apply be4 in E; [|exact H1|exact I1]. destruct E as [E1 E]. apply app_inv_head in E. apply be8 in E; [|exact H2|exact I2]. destruct E as [E2 E].
  rewrite <- (app_nil_r (be_enc 4 (rq_len r))), <- (app_nil_r (be_enc 4 len)) in E. apply be4 in E; [|exact H3|exact I3]. destruct E as [E3 _]. unfold tup. congruence.
Qed.
Definition bag (h F : list Z) (tr : list item) (rs : list req) : Prop := forall open, serves h F tr open -> Permutation open (map tup rs).
Lemma bag_send : forall h F tr rs r, 0 <= rq_id r < 4294967296 -> 0 <= rq_off r < 18446744073709551616 -> 0 <= rq_len r < 4294967296 -> bag h F tr rs -> bag h F (tr ++ [TSend (read_request h r)]) (rs ++ [r]).
Proof.
  intros h F tr rs r H1 H2 H3 B open S. apply serves_snoc in S. destruct S as (o & id & off & len & -> & S & A). apply asks_req in A; auto. rewrite map_app. cbn [map]. rewrite A. apply Permutation_app_tail. now apply B.
Qed.
Lemma bag_write : forall h F tr rs off d w, bag h F tr rs -> bag h F (tr ++ [TWrite off d w]) rs.
Proof. intros h F tr rs off d w B open S. apply serves_snoc in S. now apply B. Qed.
Lemma bag_perm : forall h F tr rs rs', Permutation rs rs' -> bag h F tr rs -> bag h F tr rs'.
Proof. intros h F tr rs rs' P B open S. eapply Permutation_trans; [exact (B open S)|]. now apply Permutation_map. Qed.
Lemma reply_id : forall F id off len m, truth F id off len m -> exists k m2, 0 <= k < 256 /\ m = [k] ++ be_enc 4 id ++ m2.
Proof.
  intros F id off len m [(d & (_ & rest & ->) & _)|[((_ & rest & ->) & _)|(code & _ & _ & rest & ->)]]; [exists 103|exists 101|exists 101]; eexists; (split; [lia|reflexivity]).
Qed.
(** A truthful reply is to one of the requests, and that one is then gone. *)
Lemma bag_recv : forall h F tr rs m, NoDup (map rq_id rs) -> (forall r, In r rs -> 0 <= rq_id r < 4294967296) -> bag h F tr rs -> honest h F (tr ++ [TRecv m]) ->
  exists r, In r rs /\ truth F (rq_id r) (rq_off r) (rq_len r) m /\ bag h F (tr ++ [TRecv m]) (request_remove rs (rq_id r)).
Proof.
  intros h F tr rs m N Ids B (open0 & S0). apply serves_snoc in S0. destruct S0 as (o1 & o2 & id & off & len & _ & S0 & T0). pose proof (B _ S0) as P0.
  assert (I0 : In (id, off, len) (map tup rs)) by (apply (Permutation_in _ P0); apply in_app_iff; right; now left). apply in_map_iff in I0. destruct I0 as (r & Er & Hr). exists r. split; [exact Hr|]. pose proof Er as Er0. unfold tup in Er. injection Er as <- <- <-. split; [exact T0|].
  intros open S. apply serves_snoc in S. destruct S as (p1 & p2 & id' & off' & len' & -> & S & T). pose proof (B _ S) as P. assert (I1 : In (id', off', len') (map tup rs)) by (apply (Permutation_in _ P); apply in_app_iff; right; now left). apply in_map_iff in I1. destruct I1 as (r' & Er' & Hr'). pose proof Er' as Er1. unfold tup in Er'. injection Er' as <- <- <-.
  assert (Same : rq_id r' = rq_id r). { destruct (reply_id _ _ _ _ _ T) as (k & m2 & Hk & E1). destruct (reply_id _ _ _ _ _ T0) as (k' & m2' & Hk' & E2). rewrite E1 in E2. cbn [app] in E2. apply (f_equal (@tl Z)) in E2. cbn [tl] in E2. apply be4 in E2; [apply E2| |]; now apply Ids. }
  assert (r' = r) as ->. { pose proof (find_in rs r' N Hr') as F1. rewrite Same, (find_in rs r N Hr) in F1. congruence. }
  destruct (find_split rs (rq_id r) r (find_in rs r N Hr)) as (l1 & l2 & El & _ & Erm & _). rewrite Erm. rewrite El in P. rewrite map_app in *. cbn [map] in P. apply Permutation_app_inv in P. exact P.
Qed.
