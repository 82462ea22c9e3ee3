(** Proofs for ServProps, part 6: lines. *)
From Coq Require Import String.
From Verif Require Import Base Text MiscNumModel ArgvModel AddrModel ServModel ServSpec.
Local Open Scope Z_scope.


Lemma white_iff : forall c, white c = true <-> blank c.
Proof. intros c. unfold white, blank. rewrite !orb_true_iff, !Z.eqb_eq. tauto. Qed.
Lemma white_false : forall c, ~ blank c -> white c = false.
Proof. intros c H. destruct (white c) eqn:Q; [apply white_iff in Q; contradiction|reflexivity]. Qed.
Lemma skip_white_app : forall s r, Forall blank s -> (match r with c :: _ => ~ blank c | [] => True end) -> skip_white (s ++ r) = r.
Proof.
  intros s r H N. induction H as [|c s B H IH]; cbn [app skip_white].
  - destruct r as [|c r]; [reflexivity|]. cbn [skip_white]. now rewrite (white_false c N).
  - apply white_iff in B. now rewrite B.
Qed.
Lemma pbrk_app : forall set s c r, Forall (fun x => ~ In x set) s -> In c set -> pbrk set (s ++ c :: r) = (s, c :: r).
Proof.
  intros set s c r H C. induction H as [|x s X H IH]; cbn [app pbrk].
  - assert (Q : existsb (Z.eqb c) set = true) by (apply existsb_exists; exists c; split; [exact C|apply Z.eqb_refl]). now rewrite Q.
  - assert (Q : existsb (Z.eqb x) set = false). { destruct (existsb (Z.eqb x) set) eqn:Q; [|reflexivity]. apply existsb_exists in Q. destruct Q as (y & A & B). apply Z.eqb_eq in B. subst y. contradiction. }
    rewrite Q, IH. reflexivity.
Qed.
Lemma rstrip_trail : forall s t, Forall (fun c => blank c \/ c = 12) t -> (match s with [] => True | _ => ~ (blank (List.last s 0) \/ List.last s 0 = 12) end) -> rstrip (s ++ t) = s.
Proof.
  intros s t T. assert (RT : rstrip t = []).
  { induction T as [|c t C T IH]; [reflexivity|]. cbn [rstrip]. rewrite IH. assert (Q : white c || (c =? 12) = true) by (apply orb_true_iff; rewrite white_iff, Z.eqb_eq; exact C). now rewrite Q. }
  induction s as [|c s IH]; intros N; cbn [app]; [exact RT|]. cbn [rstrip]. destruct s as [|d s].
  - cbn [app]. rewrite RT. cbn [List.last] in N. assert (Q : white c || (c =? 12) = false). { destruct (white c || (c =? 12)) eqn:Q; [|reflexivity]. apply orb_true_iff in Q. rewrite white_iff, Z.eqb_eq in Q. contradiction. }
    now rewrite Q.
  - rewrite IH; [reflexivity|exact N].
Qed.
Lemma line_directive : forall k sep rest trail, k <> [] -> Forall (fun c => ~ blank c /\ c <> 34 /\ c <> 61) k -> hd 0 k <> 35 -> separates sep ->
  rest <> [] -> ~ blank (hd 0 rest) -> hd 0 rest <> 61 -> ~ (blank (List.last rest 0) \/ List.last rest 0 = 12) -> Forall (fun c => blank c \/ c = 12) trail ->
  split_line (k ++ sep ++ rest ++ trail) = match argv_split rest true with SArgs a => Dir k rest a | _ => Wrong end.
Proof.
  intros k sep rest trail KN KC KH S RN RB RE RL T.
  assert (SL : strip_line (k ++ sep ++ rest ++ trail) = k ++ sep ++ rest).
  { destruct k as [|c k]; [congruence|]. cbn [app strip_line]. f_equal. rewrite !app_assoc. apply rstrip_trail; [exact T|].
    assert (L : List.last ((k ++ sep) ++ rest) 0 = List.last rest 0).
    { clear -RN. generalize (k ++ sep) as l. induction l as [|x l IH]; [reflexivity|]. cbn [app]. rewrite <- IH. destruct (l ++ rest) eqn:Q; [|reflexivity]. apply app_eq_nil in Q. destruct Q. contradiction. }
    rewrite L. destruct ((k ++ sep) ++ rest); [exact I|exact RL]. }
  assert (KC' : Forall (fun x => ~ In x [32; 9; 13; 10; 34; 61]) k).
  { eapply Forall_impl; [|exact KC]. intros a (A & B & C) D. cbn [In] in D. unfold blank in A. intuition. }
  assert (SD : strdelim (k ++ sep ++ rest) = Some (k, Some rest)).
  { assert (HR : match rest with c :: _ => ~ blank c | [] => True end) by (destruct rest; [exact I|exact RB]).
    destruct rest as [|r0 rest]; [congruence|]. cbn [hd] in *. unfold strdelim. inversion S as [s A B Q|s t A B Q]; subst sep.
    - destruct s as [|c s]; [congruence|]. inversion B as [|? ? B1 B2]; subst. cbn [app].
      rewrite (pbrk_app _ k c (s ++ r0 :: rest) KC') by (unfold blank in B1; cbn [In]; intuition).
      assert (Q1 : c =? 34 = false) by (apply Z.eqb_neq; unfold blank in B1; lia). rewrite Q1. cbv zeta. rewrite skip_white_app by assumption.
      assert (Q2 : (r0 =? 61) = false) by now apply Z.eqb_neq. now rewrite Q2.
    - destruct s as [|c s].
      + cbn [app]. rewrite (pbrk_app _ k 61 (t ++ r0 :: rest) KC') by (cbn [In]; intuition). change (61 =? 34) with false. cbv iota zeta. rewrite skip_white_app by assumption.
        change (61 =? 61) with true. cbn [negb]. now rewrite andb_false_r.
      + inversion A as [|? ? B1 B2]; subst. cbn [app]. rewrite <- app_assoc. cbn [app]. rewrite (pbrk_app _ k c (s ++ 61 :: t ++ r0 :: rest) KC') by (unfold blank in B1; cbn [In]; intuition).
        assert (Q1 : c =? 34 = false) by (apply Z.eqb_neq; unfold blank in B1; lia). rewrite Q1. cbv zeta.
        rewrite skip_white_app; [|assumption|intros X; unfold blank in X; lia]. change (61 =? 61) with true.
        assert (Q2 : c =? 61 = false) by (apply Z.eqb_neq; unfold blank in B1; lia). rewrite Q2. cbn [andb negb]. now rewrite skip_white_app. }
  unfold split_line. rewrite SL. destruct k as [|c k]; [congruence|]. cbn [app] in SD |- *. rewrite SD. unfold split_rest.
  cbn [hd] in KH. apply Z.eqb_neq in KH. rewrite KH. destruct rest; [congruence|reflexivity].
Qed.
Lemma line_comment : forall l, hd 0 l = 35 -> split_line l = Skip.
Proof.
  intros l H0. assert (H : hd 0 (strip_line l) = 35) by (destruct l; exact H0). unfold split_line. destruct (strip_line l) as [|c s] eqn:Q; [discriminate|]. cbn [hd] in H. subst c.
  unfold strdelim. destruct (pbrk [32; 9; 13; 10; 34; 61] (35 :: s)) as [old t] eqn:P.
  assert (O : exists o, old = 35 :: o). { cbn [pbrk existsb] in P. change (35 =? 32) with false in P. change (35 =? 9) with false in P. change (35 =? 13) with false in P. change (35 =? 10) with false in P. change (35 =? 34) with false in P. change (35 =? 61) with false in P.
    cbn [orb] in P. destruct (pbrk [32; 9; 13; 10; 34; 61] s). injection P as <- _. eauto. }
  destruct O as (o & ->). destruct t as [|c r]; [reflexivity|]. destruct (c =? 34).
  - destruct (pbrk [34] r) as [inner t']. destruct t'; reflexivity.
  - cbv zeta. destruct (skip_white r) as [|d r2]; [reflexivity|]. destruct ((d =? 61) && negb (c =? 61)); reflexivity.
Qed.
